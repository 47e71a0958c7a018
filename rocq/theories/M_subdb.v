(** Model of the service that publishes a day's data: workers/subdb/subdb.c 32-56, 180-240, 242-282, 283-396, subdb.h 12-42,
    sis_match_key and sis_match_sdb_of_sds of src/core/sis_utils.c 577-609, 640-678, sis_json_to_sds 539-558, with the
    subscriptions of M_sub and the JSON texts of M_json.
    None = a null pointer is read, freed memory is used or freed again, or a buffer is overrun.
    Simplified: names hold no zero byte; the map of readers is a list looked up by number (C43), and the loops over it
    (C44) meet the entries in any order; a date is the number sis_net_msg_info_as_date returns; of a message to a reader
    its kind, content and reader are kept; the parser has room on the stack for one call more than the text has bytes
    (C51); the log (wlog) is left out; a closed connection calls the command clear (sisdb_server.c:61-70), which is not
    among the methods of this service (subdb.c:9-18), so nothing happens. *)
From Coq Require Import ZArith List Bool Sorting.Permutation.
From Verif Require Import Base S_server M_server S_sub M_sub S_json M_json S_kdict M_kdict S_subdb.
Import ListNotations.
Open Scope list_scope.
Open Scope Z_scope.

(** SIS_SUB_STATUS_*, of the service and of a reader *)
Inductive status := SNone | SInit | SWork | SStop.
Definition status_eqb (a b : status) : bool :=
  match a, b with SNone, SNone | SInit, SInit | SWork, SWork | SStop, SStop => true | _, _ => false end.
(** s_subdb_userinfo, subdb.h:12-18 *)
Record user := mkuser { u_cid : Z; u_st : status; u_subk : option str; u_subt : option str }.
(** the text of the tables: none, a text, or a pointer to freed memory *)
Inductive held := HdNull | HdText (t : str) | HdFreed.
(** s_subdb_cxt, subdb.h:20-42 *)
Record sdb := mksdb { d_st : status; d_date : Z; d_readers : Z; d_keys : option str; d_tabs : held; d_users : list user; d_subs : scxt }.
(** subdb_init, subdb.c:64-107 *)
Definition sdb0 : sdb := mksdb SNone 0 0 None HdNull [] scxt0.
Definition set_users (s : sdb) (us : list user) : sdb :=
  mksdb (d_st s) (d_date s) (d_readers s) (d_keys s) (d_tabs s) us (d_subs s).

(** sis_json_load with its room *)
Definition load_text (t : str) : load_res := json_load (S (List.length t)) t.
(** sis_json_to_sds(node, true), sis_utils.c:539-558: the short form; None = a buffer is overrun *)
Definition to_sds (n : jnode) : option held :=
  match json_output false n with WText t => Some (HdText t) | WNull => Some HdNull | WOver => None end.

(** sis_match_key, sis_utils.c:577-609 *)
Fixpoint cat_keys (o : option str) (p : option str) (l : list str) : option str :=
  match l with
  | [] => o
  | k :: l' =>
    cat_keys (if subcmp false k p then Some (match o with Some t => t ++ COMMA :: k | None => k end) else o) p l'
  end.
Definition match_key (p : option str) (whole : str) : option str :=
  if is_star p then Some whole else cat_keys None p (load [] whole).
(** sis_match_sdb_of_sds, sis_utils.c:640-678: the nodes with other names are deleted *)
Definition keep (p : option str) (n : jnode) : bool :=
  match jkey n with Some k => subcmp true k p | None => false end.
Definition match_sdb (p : option str) (whole : str) : option held :=
  if is_star p then Some (HdText whole)
  else
    match load_text whole with
    | LDeep | LFuel => None
    | LNull => Some (HdText whole)
    | LTree (JN ty k v kids) => to_sds (JN ty k v (filter (keep p) kids))
    end.

(** cmd_subdb_set, subdb.c:180-207, with the tag SIS_NET_TAG_SUB_KEY: sis_sdsdup reads the length of a missing content *)
Definition set_keys (s : sdb) (info : option str) : option (sdb * bool) :=
  match info with
  | None => None
  | Some t => Some (mksdb (d_st s) (d_date s) (d_readers s) (Some t) (d_tabs s) (d_users s) (d_subs s), true)
  end.
(** .. and with SIS_NET_TAG_SUB_SDB: 196 frees the old text, 198 reads the length of the content, 199-202 *)
Definition set_tables (s : sdb) (info : option str) : option (sdb * bool) :=
  match d_tabs s, info with
  | HdFreed, _ => None
  | _, None => None
  | old, Some t =>
    match load_text t with
    | LDeep | LFuel => None
    | LNull =>
      Some (mksdb (d_st s) (d_date s) (d_readers s) (d_keys s) (match old with HdNull => HdNull | _ => HdFreed end) (d_users s) (d_subs s), false)
    | LTree n =>
      match to_sds n with
      | None => None
      | Some x => Some (mksdb (d_st s) (d_date s) (d_readers s) (d_keys s) x (d_users s) (d_subs s), true)
      end
    end
  end.
(** cmd_subdb_start, 209-240 *)
Definition set_st (x : status) (u : user) : user := mkuser (u_cid u) x (u_subk u) (u_subt u).
Definition do_start (s : sdb) (date : Z) : sdb :=
  mksdb SInit date 0 (d_keys s) (d_tabs s) (map (set_st SInit) (d_users s)) (d_subs s).
(** the loop of cmd_subdb_stop, 257-269 *)
Fixpoint stop_all (date : Z) (us : list user) : list user * list (Z * heard) :=
  match us with
  | [] => ([], [])
  | u :: us' =>
    let '(r, o) := stop_all date us' in
    if status_eqb (u_st u) SStop then (u :: r, o) else (set_st SStop u :: r, (u_cid u, HStop date) :: o)
  end.
(** cmd_subdb_stop, 242-282 *)
Definition do_stop (s : sdb) : sdb * list (Z * heard) * bool :=
  if status_eqb (d_st s) SStop || status_eqb (d_st s) SNone then (s, [], false)
  else
    let '(us, o) := stop_all (d_date s) (d_users s) in
    (mksdb SStop (d_date s) 0 (d_keys s) (d_tabs s) us (d_subs s), o, true).
(** the body of the loop of _subdb_reader_init, 312-344, for one reader that is not yet at work: 320 and 334 read the texts;
    335 reads the length of the text of the tables *)
Definition greet (date : Z) (keys : option str) (tabs : held) (u : user) : option (list (Z * heard)) :=
  match keys, tabs with
  | Some k, HdText t =>
    match match_sdb (u_subt u) t with
    | Some (HdText x) =>
      Some ((u_cid u, HStart date) ::
        match match_key (u_subk u) k with Some y => [(u_cid u, HKeys y)] | None => [] end ++
        [(u_cid u, HTables x); (u_cid u, HWait date)])
    | _ => None
    end
  | _, _ => None
  end.
(** the loop, 308-350 *)
Fixpoint greet_all (date : Z) (keys : option str) (tabs : held) (us : list user) (readers : Z) : option (list user * Z * list (Z * heard)) :=
  match us with
  | [] => Some ([], readers, [])
  | u :: us' =>
    if status_eqb (u_st u) SInit then
      match greet date keys tabs u with
      | None => None
      | Some o =>
        match greet_all date keys tabs us' (readers + 1) with
        | None => None
        | Some (r, n, o') => Some (set_st SWork u :: r, n, o ++ o')
        end
      end
    else
      match greet_all date keys tabs us' readers with
      | None => None
      | Some (r, n, o') => Some (u :: r, n, o')
      end
  end.
(** _subdb_reader_init, 283-354: a pointer to freed memory is not NULL (291) *)
Definition reader_init (s : sdb) : option (sdb * list (Z * heard) * bool) :=
  if status_eqb (d_st s) SStop || status_eqb (d_st s) SNone then Some (s, [], false)
  else if status_eqb (d_st s) SInit && (match d_keys s with None => true | _ => false end || match d_tabs s with HdNull => true | _ => false end)
  then Some (s, [], false)
  else if Z.of_nat (List.length (d_users s)) <=? d_readers s
  then Some (mksdb SWork (d_date s) (d_readers s) (d_keys s) (d_tabs s) (d_users s) (d_subs s), [], true)
  else
    match greet_all (d_date s) (d_keys s) (d_tabs s) (d_users s) (d_readers s) with
    | None => None
    | Some (us, n, o) => Some (mksdb SWork (d_date s) n (d_keys s) (d_tabs s) us (d_subs s), o, true)
    end.
(** cmd_subdb_pub, 355-374 *)
Definition do_pub (s : sdb) (es : smap) (subject : str) : option (sdb * list (Z * heard) * bool) :=
  match reader_init s with
  | None => None
  | Some (s', o, false) => Some (s', o, false)
  | Some (s', o, true) =>
    match cxt_pub (d_subs s') es subject with
    | None => None
    | Some l => Some (s', o ++ map (fun c => (c, HData subject)) l, true)
    end
  end.
(** subdb_userinfo_incr, 32-45, and cmd_subdb_sub, 376-385 *)
Definition incr (us : list user) (cid : Z) (subject : str) : list user :=
  if existsb (fun u => u_cid u =? cid) us then us
  else let '(k, t) := divide_sds subject [] in us ++ [mkuser cid SInit k t].
Definition do_sub (s : sdb) (cid : Z) (subject : str) : option sdb :=
  match cxt_sub (d_subs s) cid true subject with
  | None => None
  | Some (x, _) => Some (mksdb (d_st s) (d_date s) (d_readers s) (d_keys s) (d_tabs s) (incr (d_users s) cid subject) x)
  end.
(** subdb_userinfo_decr, 46-56, and cmd_subdb_unsub, 387-396 *)
Definition do_unsub (s : sdb) (cid : Z) : sdb :=
  let x := fst (cxt_unsub (d_subs s) cid) in
  if existsb (fun u => u_cid u =? cid) (d_users s) then
    mksdb (d_st s) (d_date s) (Z.max (d_readers s - 1) 0) (d_keys s) (d_tabs s) (filter (fun u => negb (u_cid u =? cid)) (d_users s)) x
  else mksdb (d_st s) (d_date s) (d_readers s) (d_keys s) (d_tabs s) (d_users s) x.

(** one command: the state after, what was sent, and whether the answer is SIS_METHOD_OK; [es] is the order in which the
    loop of a publication meets the patterns *)
Definition run_cmd (s : sdb) (es : smap) (c : scmd) : option (sdb * list (Z * heard) * bool) :=
  match c with
  | CKeys i => match set_keys s i with Some (s', b) => Some (s', [], b) | None => None end
  | CTables i => match set_tables s i with Some (s', b) => Some (s', [], b) | None => None end
  | CStart d => Some (do_start s d, [], true)
  | CStop => Some (do_stop s)
  | CPub n => do_pub s es n
  | CSub c n => match do_sub s c n with Some s' => Some (s', [], true) | None => None end
  | CUnsub c => Some (do_unsub s c, [(c, HLeft)], true)
  | CGone _ => Some (s, [], false)
  end.
(** a state the service may be found in when the next command comes: the loops may meet readers and patterns in any order *)
Definition may_be (s s' : sdb) (es : smap) : Prop :=
  exists us, Permutation us (d_users s) /\ s' = set_users s us /\ Permutation es (s_mul (d_subs s)).
(** the histories without a crash *)
Inductive history : list scmd -> sdb -> list (Z * heard) -> Prop :=
| H_nil : history [] sdb0 []
| H_cmd h s o s1 es c s' o' b : history h s o -> may_be s s1 es -> run_cmd s1 es c = Some (s', o', b) ->
    history (h ++ [c]) s' (o ++ o').
