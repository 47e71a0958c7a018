(** Model of the store for one day at a time, workers/frwdb/frwdb.c and frwdb_reader.c: commands of the server (one after the other,
    sisdb_server.c:473-475), the thread that files what they leave in the queue, and the log of the commands.

    Simplifications: the queue is a list (C23), the list of nodes is a list of records (C13 and C36 for lists and maps), the texts of
    set are given as the bytes they are turned into (C74), the file worker is what is handed to it.  A table is its name and record
    size.  Tables and keys are looked up by sis_map_list (C36): ignoring case, in the order of their first setting.  Sizes are below
    2^31.  [None]: access past the end of what was sent. *)
From Coq Require Import String.
From Verif Require Import Base S_server S_map S_sub M_dynamic M_sub S_frwdb.
Open Scope list_scope. Open Scope Z_scope.

(** an item of work_nodes: the two numbers and the bytes, sis_net_mems_push_kv, sis_net.node.c:259-284 *)
Definition qitem : Type := Z * Z * list Z.
(** an entry of map_data: a node list of its own record size, frwdb.c:485-487 *)
Definition nlist : Type := nat * list (list Z).
(** frwdb.h:103-129; [s_read] is what the thread has taken and not yet filed *)
Record st := mks {
  s_open : bool; s_date : Z;
  s_keys : list (list Z); s_tabs : list (list Z * nat);
  s_queue : list qitem; s_read : list qitem;
  s_data : list (list Z * nlist);
  s_log : bool; s_mark : Z;                 (* wlog_opened, wlog_mark *)
  s_logs : list (Z * list cmd);             (* the log files by their dates *)
  s_saved : list (list Z * list Z * list Z) (* what was handed to the file worker *)
}.
Definition st0 (tabs : list (list Z * nat)) : st := mks false 0 [] tabs [] [] [] false 0 [] [].

(** sis_map_list_get_index, sis_map.c:175-189, from position [i]: -1 if there is none *)
Fixpoint index_from (l : list (list Z)) (k : list Z) (i : Z) : Z :=
  match l with [] => -1 | x :: r => if same_name k x then i else index_from r k (i + 1) end.
Definition index_of (l : list (list Z)) (k : list Z) : Z := index_from l k 0.
(** sis_map_list_geti, sis_map.c:190-196; sis_pointer_list_get, sis_list.c:1697-1706 *)
Definition geti {A} (l : list A) (i : Z) : option A :=
  if (0 <=? i) && (i <? Z.of_nat (List.length l)) then nth_error l (Z.to_nat i) else None.
(** sis_map_list_set, sis_map.c:216-234, for tables *)
Fixpoint set_tab (l : list (list Z * nat)) (s : list Z) (n : nat) : list (list Z * nat) :=
  match l with [] => [(s, n)] | x :: r => if same_name s (fst x) then (s, n) :: r else x :: set_tab r s n end.

(** sis_map_pointer_get and the change of the entry *)
Fixpoint find_data (l : list (list Z * nlist)) (k : list Z) : option nlist :=
  match l with [] => None | (k', v) :: r => if same_name k k' then Some v else find_data r k end.
Fixpoint put_data (l : list (list Z * nlist)) (k : list Z) (v : nlist) : list (list Z * nlist) :=
  match l with [] => [(k, v)] | (k', v') :: r => if same_name k k' then (k', v) :: r else (k', v') :: put_data r k v end.
(** the loop that pushes the records, frwdb.c:489-493, 808-812: steps of the size of the table, copies of the size of the list
    (sis_node_list_push, sis_list.c:561-577) *)
Fixpoint cut (n step : nat) (b : list Z) (count i : nat) : option (list (list Z)) :=
  match count with
  | O => Some []
  | S c => match slice b (i * step) n, cut n step b c (S i) with Some x, Some r => Some (x :: r) | _, _ => None end
  end.
(** _frwdb_make_data_chr, frwdb.c:478-504, and the end of _frwdb_make_data_idx, 799-812; the name is written to 128 bytes *)
Definition make_data (data : list (list Z * nlist)) (kn sn : list Z) (size : nat) (b : list Z) : option (list (list Z * nlist)) :=
  let subject := firstn 127 (kn ++ DOT :: sn) in
  let '(n, recs) := match find_data data subject with Some v => v | None => (size, []) end in
  match cut n size b (List.length b / size) 0 with
  | Some rs => Some (put_data data subject (n, recs ++ rs))
  | None => None
  end.
(** _frwdb_make_data_idx, frwdb.c:791-824 *)
Definition file_item (keys : list (list Z)) (tabs : list (list Z * nat)) (data : list (list Z * nlist)) (x : qitem) :
    option (list (list Z * nlist)) :=
  let '(kidx, sidx, b) := x in
  match geti tabs sidx, geti keys kidx with
  | Some (sn, size), Some kn => make_data data kn sn size b
  | _, _ => Some data
  end.
Fixpoint file_all (keys : list (list Z)) (tabs : list (list Z * nat)) (data : list (list Z * nlist)) (l : list qitem) :
    option (list (list Z * nlist)) :=
  match l with
  | [] => Some data
  | x :: r => match file_item keys tabs data x with Some d => file_all keys tabs d r | None => None end
  end.

(** the thread, _frwdb_read_data, frwdb.c:825-843: takes the queue when it has filed everything; files one item *)
Definition take (s : st) : st :=
  match s_read s with
  | [] => mks (s_open s) (s_date s) (s_keys s) (s_tabs s) [] (s_queue s) (s_data s) (s_log s) (s_mark s) (s_logs s) (s_saved s)
  | _ => s
  end.
Definition file_one (s : st) : option st :=
  match s_read s with
  | [] => Some s
  | x :: r =>
    match file_item (s_keys s) (s_tabs s) (s_data s) x with
    | Some d => Some (mks (s_open s) (s_date s) (s_keys s) (s_tabs s) (s_queue s) r d (s_log s) (s_mark s) (s_logs s) (s_saved s))
    | None => None
    end
  end.

(** frwdb_wfile_save, frwdb.c:356-413, if the worker can be made ([ok]); empty lists are not written (398, 738-751) *)
Fixpoint writes (data : list (list Z * nlist)) : option (list (list Z * list Z * list Z)) :=
  match data with
  | [] => Some []
  | (subject, (_, recs)) :: r =>
    match divide 128 subject [], writes r with
    | Some (_, kn, sn), Some w => Some (match List.concat recs with [] => w | b => (kn, sn, b) :: w end)
    | _, _ => None
    end
  end.
Definition remove_log (d : Z) (l : list (Z * list cmd)) : list (Z * list cmd) := filter (fun x => negb (fst x =? d)) l.
(** frwdb_write_stop, frwdb.c:754-788: the thread is ended (845-860: it files the rest first), everything is saved, the log is
    removed (with mark 0 that of today, sis_disk.io.c:152), the memory is cleared.  While the log is read ([replay]), its removal is
    refused (sisdb_flog.c:231-238) *)
Definition write_stop (replay ok : bool) (today : Z) (s : st) : option st :=
  match file_all (s_keys s) (s_tabs s) (s_data s) (s_read s ++ s_queue s) with
  | None => None
  | Some data =>
    match writes data with
    | None => None
    | Some w =>
      Some (mks (s_open s) (s_date s) (s_keys s) (s_tabs s) [] [] [] false (s_mark s)
                (if replay then s_logs s else remove_log (if s_mark s =? 0 then today else s_mark s) (s_logs s))
                (if ok then s_saved s ++ w else s_saved s))
    end
  end.
Definition with_day (open : bool) (d : Z) (s : st) : st :=
  mks open d (s_keys s) (s_tabs s) (s_queue s) (s_read s) (s_data s) (s_log s) (s_mark s) (s_logs s) (s_saved s).
(** the key is added if it is not there, frwdb.c:464-469, 526-531 *)
Definition add_key (keys : list (list Z)) (k : list Z) : list (list Z) := if index_of keys k <? 0 then keys ++ [k] else keys.
(** the commands: create (201-227) and setdb (229-253); start (255-287); stop (324-355); save (414-427); set (428-476); bset (505-558) *)
Definition proc (replay ok : bool) (today : Z) (s : st) (c : cmd) : option st :=
  match c with
  | Create t n =>
    Some (mks (s_open s) (s_date s) (s_keys s) (set_tab (s_tabs s) t n) (s_queue s) (s_read s) (s_data s) (s_log s) (s_mark s) (s_logs s) (s_saved s))
  | Start d =>
    if s_open s then
      if d =? s_date s then Some s
      else if 0 <? s_date s then option_map (with_day true d) (write_stop replay ok today s) else Some s
    else Some (with_day true d s)
  | Stop => if s_open s then option_map (with_day false 0) (write_stop replay ok today s) else Some s
  | Save =>
    if s_open s then Some s
    else match writes (s_data s) with
         | Some w => Some (mks (s_open s) (s_date s) (s_keys s) (s_tabs s) (s_queue s) (s_read s) (s_data s) (s_log s) (s_mark s) (s_logs s)
                               (if ok then s_saved s ++ w else s_saved s))
         | None => None
         end
  | Put text subject [] => Some s
  | Put text subject b =>
    if text && negb (s_open s) then Some s
    else match divide 128 subject [] with
         | None => None
         | Some (_, kn, sn) =>
           match geti (s_tabs s) (index_of (map fst (s_tabs s)) sn) with
           | None => Some s
           | Some (dn, size) =>
             let kidx := index_of (s_keys s) kn in
             let keys := add_key (s_keys s) kn in
             let sidx := index_of (map fst (s_tabs s)) sn in
             if s_open s then
               Some (mks (s_open s) (s_date s) keys (s_tabs s) (s_queue s ++ [(kidx, sidx, b)]) (s_read s) (s_data s) (s_log s) (s_mark s) (s_logs s) (s_saved s))
             else match make_data (s_data s) kn dn size b with
                  | Some d => Some (mks (s_open s) (s_date s) keys (s_tabs s) (s_queue s) (s_read s) d (s_log s) (s_mark s) (s_logs s) (s_saved s))
                  | None => None
                  end
           end
         end
  end.

(** cmd_frwdb_wlog, frwdb.c:626-645, called before every command that writes (sisdb_server.c:448-453) *)
Fixpoint append_log (d : Z) (c : cmd) (l : list (Z * list cmd)) : list (Z * list cmd) :=
  match l with [] => [(d, [c])] | (d', cs) :: r => if d =? d' then (d', cs ++ [c]) :: r else (d', cs) :: append_log d c r end.
Definition wlog (today : Z) (c : cmd) (s : st) : st :=
  let mark := if s_log s then s_mark s else today in
  mks (s_open s) (s_date s) (s_keys s) (s_tabs s) (s_queue s) (s_read s) (s_data s) true mark (append_log mark c (s_logs s)) (s_saved s).

Fixpoint procs (today : Z) (s : st) (cs : list cmd) : option st :=
  match cs with [] => Some s | c :: r => match proc true true today s c with Some s' => procs today s' r | None => None end end.
Fixpoint log_of (d : Z) (l : list (Z * list cmd)) : list cmd :=
  match l with [] => [] | (d', cs) :: r => if d =? d' then cs else log_of d r end.
(** the program ends and is started again with some tables: frwdb_wlog_load, frwdb.c:687-703, asks for the log of the mark, which is
    0 in a new context: the log of today *)
Definition restart (today : Z) (tabs : list (list Z * nat)) (s : st) : option st :=
  procs today (mks false 0 [] tabs [] [] [] false 0 (s_logs s) (s_saved s)) (log_of today (s_logs s)).

Inductive event :=
| Do (today : Z) (ok : bool) (c : cmd)
| Auto (today : Z) (ok : bool)   (* frwdb_working, frwdb.c:650-670: the day is ended by the clock, nothing is logged *)
| Take
| File
| Restart (today : Z) (tabs : list (list Z * nat)).
Definition step (s : st) (e : event) : option st :=
  match e with
  | Do today ok c => proc false ok today (wlog today c s) c
  | Auto today ok => proc false ok today s Stop
  | Take => if s_open s then Some (take s) else Some s
  | File => if s_open s then file_one s else Some s
  | Restart today tabs => restart today tabs s
  end.
Fixpoint run (s : st) (es : list event) : option st :=
  match es with [] => Some s | e :: r => match step s e with Some s' => run s' r | None => None end end.

(** frwdb_read, frwdb_reader.c:135-232, for the date [date] of the request or the current one; the answer from memory is given as
    bytes or as a text according to the format, the bytes are the same *)
Inductive answer := ANil | AError | ADisk | AMem (text : bool) (b : list Z).
Definition get (s : st) (date : option Z) (text : bool) (subject : list Z) : answer :=
  if exist_ch subject [STAR; COMMA] then ANil
  else match divide_sds subject [] with
       | (Some _, Some _) =>
         if negb (match date with Some d => d | None => s_date s end =? s_date s) || negb (s_open s) then ADisk
         else match find_data (s_data s) subject with
              | Some (_, recs) => match List.concat recs with [] => ANil | b => AMem text b end
              | None => ANil
              end
       | _ => AError
       end.

(** * the change of the thread
    when a day is begun while another one runs: context->read_thread is read and written by the server's thread and by the threads
    themselves without a lock.  One step is one access to shared memory.  A thread is numbered in the order of creation. *)
Inductive wstat := WNone | WWork | WExit.       (* SIS_WAIT_STATUS_*, work_status of one thread object *)
Inductive tpc := TBegin | TLoop | TRest | TClear | TEnd.
Inductive mpc := MServe | MJoin (i : nat) | MReset | MMake | MOpen (i : nat).
Record hand := mkh { h_ptr : option nat; h_stat : list wstat; h_thr : list tpc; h_main : mpc }.
Definition upd {A} (l : list A) (i : nat) (x : A) : list A := firstn i l ++ x :: skipn (S i) l.
(** a step of thread [i], _thread_reader, frwdb.c:845-860; [None]: read_thread is NULL and is dereferenced
    (sis_wait_thread_start, noexit, stop, sis_thread.c:217-241) *)
Definition thr_step (h : hand) (i : nat) : option hand :=
  match nth_error (h_thr h) i with
  | Some TBegin => match h_ptr h with
      | Some p => Some (mkh (h_ptr h) (upd (h_stat h) p WWork) (upd (h_thr h) i TLoop) (h_main h)) | None => None end
  | Some TLoop => match h_ptr h with
      | Some p => match nth_error (h_stat h) p with
                  | Some WExit => Some (mkh (h_ptr h) (h_stat h) (upd (h_thr h) i TRest) (h_main h))
                  | _ => Some h
                  end
      | None => None end
  | Some TRest => match h_ptr h with
      | Some p => Some (mkh (h_ptr h) (upd (h_stat h) p WNone) (upd (h_thr h) i TClear) (h_main h)) | None => None end
  | Some TClear => Some (mkh None (h_stat h) (upd (h_thr h) i TEnd) (h_main h))
  | _ => Some h
  end.
(** a step of the server's thread: cmd_frwdb_start, frwdb.c:270-284, with sis_wait_thread_destroy (sis_thread.c:159-173), 756-762,
    and frwdb_write_start, 862-880, with sis_wait_thread_open (sis_thread.c:189-201) *)
Definition main_step (h : hand) : hand :=
  match h_main h with
  | MServe => match h_ptr h with
      | Some p => match nth_error (h_stat h) p with
                  | Some WWork => mkh (h_ptr h) (upd (h_stat h) p WExit) (h_thr h) (MJoin p)
                  | _ => mkh (h_ptr h) (h_stat h) (h_thr h) MReset
                  end
      | None => mkh (h_ptr h) (h_stat h) (h_thr h) MMake end
  | MJoin p => match nth_error (h_stat h) p with Some WNone => mkh (h_ptr h) (h_stat h) (h_thr h) MReset | _ => h end
  | MReset => mkh None (h_stat h) (h_thr h) MMake
  | MMake => match h_ptr h with
      | Some _ => mkh (h_ptr h) (h_stat h) (h_thr h) MServe
      | None => let i := List.length (h_thr h) in mkh (Some i) (h_stat h ++ [WNone]) (h_thr h ++ [TBegin]) (MOpen i) end
  | MOpen i => match nth_error (h_stat h) i with Some WWork => mkh (h_ptr h) (h_stat h) (h_thr h) MServe | _ => h end
  end.
Inductive turn := TMain | TThr (i : nat).
Fixpoint turns (h : hand) (l : list turn) : option hand :=
  match l with
  | [] => Some h
  | TMain :: r => turns (main_step h) r
  | TThr i :: r => match thr_step h i with Some h' => turns h' r | None => None end
  end.
(** the first thread works *)
Definition hand0 : hand := mkh (Some 0%nat) [WWork] [TLoop] MServe.
