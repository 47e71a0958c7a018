(** Model of the server's send queue: src/core/net/sis_net.uv.c 49-322 (s_sis_net_uv_catch), the
    server's side of it 661-701, 781-990, and sis_net.uv.h 34-54.

    Threads: any number of senders (sis_socket_server_send), the reader thread of the queue, the
    libuv loop.  A stretch of code under queue_->lock is one step; the reader's two unlocked looks
    at work_node (82, 85) and its callback (117) are steps of their own; a libuv callback is one
    step.

    Simplified: the memory queue of a client (s_sis_net_mems, see M_netq for push, read and pop) is
    its bytes: waiting (write chain) and handed out (read chain); sis_net_mems_cat, 286-308, adds
    bytes at the end without a length.  Node and session addresses are numbers never used twice; the
    slot a new session takes is any free one (see M_netq for the slot list).  A write goes out as a
    whole or fails as a whole.  sis_socket_server_send takes its look at the session list (921) and
    its push (926) in one step.  Not modelled: queue_->count, which only log lines read; the limit of
    16*1024 entries of sendbuff (379-380), reached with 256 GB waiting; cb_send_after and
    cb_disconnect_s2c; uv_async_init failing (895-900). *)
From Coq Require Import ZArith List Bool Lia.
From Verif Require Import S_sendq.
Import ListNotations.
Open Scope Z_scope.

(** where the reader thread stands, 78-124: about to read work_node (82); about to look at rsize of
    the node read (85); about to take the lock (92); about to call cb_reader (117) *)
Inductive rpc : Type := RLook | RTest (i : Z) | RLock (i : Z) | RCall.

Record st : Type := mk {
  nds : list Z;                        (* the nodes linked by next and prev, head first *)
  cid : Z -> Z;                        (* node->cid, sis_net.uv.h:36: the slot of the session *)
  rd : Z -> list Z;                    (* node->nodes: bytes handed out, rhead..rtail *)
  wr : Z -> list Z;                    (* node->nodes: bytes waiting, whead..wtail *)
  cur : option Z;                      (* curr_node, sis_net.uv.h:49 *)
  wrk : option Z;                      (* work_node, sis_net.uv.h:50 *)
  ses : Z -> option Z;                 (* server->sessions: the session of a slot in use *)
  asy : bool;                          (* uv_async_send done, _cb_server_async_write to come *)
  fly : list (Z * Z * list Z);         (* writes in flight: session, node owning the buffers, bytes *)
  pc : rpc;
  bad : bool;                          (* freed memory was read *)
  log : list sev;
  fn : Z;                              (* next node address *)
  fs : Z                               (* next session *)
}.

Definition init : st :=
  mk [] (fun _ => 0) (fun _ => []) (fun _ => []) None None (fun _ => None) false [] RLook false [] 0 0.

Definition set (A : Type) (f : Z -> A) (i : Z) (x : A) : Z -> A := fun j => if j =? i then x else f j.
Arguments set {A}.

(** _net_uv_catch_get, 250-265; also the search of sis_net_uv_catch_del, 218-247 *)
Definition find_cid (s : st) (c : Z) : option Z := find (fun i => cid s i =? c) (nds s).

(** the nodes before and behind one *)
Fixpoint around (i : Z) (l : list Z) : list Z * list Z :=
  match l with
  | [] => ([], [])
  | x :: t => if x =? i then ([], t) else let '(a, b) := around i t in (x :: a, b)
  end.

Definition here (i : Z) (l : list Z) : bool := existsb (fun x => x =? i) l.

(** _net_uv_catch_add, 266-284: behind curr_node; newnode is empty, 49-57 *)
Fixpoint put_after (c i : Z) (l : list Z) : list Z :=
  match l with
  | [] => []
  | x :: t => if x =? c then x :: i :: t else x :: put_after c i t
  end.
Definition catch_add (s : st) (c : Z) : st :=
  let i := fn s in
  let '(l, k) := match cur s with
                 | None => ([i], Some i)
                 | Some x => (put_after x i (nds s), Some x)
                 end in
  mk l (set (cid s) i c) (set (rd s) i []) (set (wr s) i []) k (wrk s) (ses s) (asy s) (fly s) (pc s)
     (bad s) (log s) (i + 1) (fs s).

(** sis_net_uv_catch_push, 285-306 *)
Definition catch_push (s : st) (c : Z) (b : list Z) : st :=
  let '(s, i) := match find_cid s c with
                 | Some i => (s, i)
                 | None => (catch_add s c, fn s)
                 end in
  mk (nds s) (cid s) (rd s) (set (wr s) i (wr s i ++ b)) (cur s)
     (match wrk s with None => Some i | w => w end)
     (ses s) (asy s) (fly s) (pc s) (bad s) (log s) (fn s) (fs s).

(** sis_net_uv_catch_del, 215-249, with sis_net_uv_node_destroy, 58-72 *)
Definition catch_del (s : st) (c : Z) : st :=
  match find_cid s c with
  | None => s
  | Some i =>
      let '(a, b) := around i (nds s) in
      let k := match cur s with
               | Some x => if x =? i
                           then match b with                     (* 229-236 *)
                                | y :: _ => Some y
                                | [] => match a with h :: _ => Some h | [] => None end
                                end
                           else Some x
               | None => None
               end in
      let w := match wrk s with
               | Some x => if x =? i then k else Some x          (* 238-241 *)
               | None => None
               end in
      mk (a ++ b) (cid s) (rd s) (wr s) k w (ses s) (asy s) (fly s) (pc s) (bad s) (log s) (fn s) (fs s)
  end.

(** sis_net_uv_catch_stop, 307-322: sis_net_mems_free_read of work_node.  The notice only ends the
    reader's wait early: the wait is not modelled, the reader may always go on *)
Definition catch_stop (s : st) : st :=
  match wrk s with
  | None => s
  | Some i =>
      mk (nds s) (cid s) (set (rd s) i []) (wr s) (cur s) (wrk s) (ses s) (asy s) (fly s) (pc s)
         (bad s) (log s) (fn s) (fs s)
  end.

Definition say (s : st) (e : sev) : st :=
  mk (nds s) (cid s) (rd s) (wr s) (cur s) (wrk s) (ses s) (asy s) (fly s) (pc s) (bad s)
     (log s ++ [e]) (fn s) (fs s).

Definition go (s : st) (p : rpc) : st :=
  mk (nds s) (cid s) (rd s) (wr s) (cur s) (wrk s) (ses s) (asy s) (fly s) p (bad s) (log s) (fn s) (fs s).

(** freed memory is read *)
Definition fault (s : st) : st :=
  mk (nds s) (cid s) (rd s) (wr s) (cur s) (wrk s) (ses s) (asy s) (fly s) RLook true (log s) (fn s) (fs s).

(** sis_socket_server_delete, 962-990: the slot is stopped, 981 and 846-876 of sis_net.node.c *)
Definition server_delete (s : st) (c : Z) : st :=
  let s := catch_del s c in
  match ses s c with
  | None => s
  | Some k =>
      say (mk (nds s) (cid s) (rd s) (wr s) (cur s) (wrk s) (set (ses s) c None) (asy s) (fly s) (pc s)
              (bad s) (log s) (fn s) (fs s)) (Closed k)
  end.

(** sis_net_uv_catch_next, 173-187, repeated from a node back to itself: the nodes looked at *)
Definition rounds (i : Z) (l : list Z) : list Z := let '(a, b) := around i l in b ++ a ++ [i].

(** sis_net_mems_read(next->nodes, 0) finds something, 96-97 *)
Definition has_data (s : st) (i : Z) : bool :=
  match rd s i, wr s i with [], [] => false | _, _ => true end.

(** sis_net_mems_read, sis_net.node.c:373-441: when nothing is handed out, all that waits *)
Definition take (s : st) (i : Z) : st :=
  match rd s i with
  | [] => mk (nds s) (cid s) (set (rd s) i (wr s i)) (set (wr s) i []) (cur s) (wrk s) (ses s) (asy s)
             (fly s) (pc s) (bad s) (log s) (fn s) (fs s)
  | _ => s
  end.

Definition set_wrk (s : st) (w : option Z) : st :=
  mk (nds s) (cid s) (rd s) (wr s) (cur s) w (ses s) (asy s) (fly s) (pc s) (bad s) (log s) (fn s) (fs s).

(** the reader under the lock, 92-110 *)
Definition reader_scan (s : st) (i : Z) : st :=
  match find (has_data s) (rounds i (nds s)) with
  | Some j => go (set_wrk (take s j) (Some j)) RCall
  | None => go (set_wrk s None) RLook
  end.

(** _thread_net_reader, 78-124; cb_server_write, 873-903 *)
Definition reader (s : st) : st :=
  match pc s with
  | RLook => match wrk s with None => s | Some i => go s (RTest i) end
  | RTest i =>
      if here i (nds s)
      then match rd s i with [] => go s (RLock i) | _ => go s RLook end
      else fault s
  | RLock i => if here i (nds s) then reader_scan s i else fault s
  | RCall =>
      match wrk s with
      | None => go (catch_stop s) RLook
      | Some _ =>
          mk (nds s) (cid s) (rd s) (wr s) (cur s) (wrk s) (ses s) true (fly s) RLook (bad s) (log s)
             (fn s) (fs s)
      end
  end.

(** _cb_server_async_write, 819-871; ok = uv_write accepted *)
Definition async_write (s : st) (ok : bool) : st :=
  let s := mk (nds s) (cid s) (rd s) (wr s) (cur s) (wrk s) (ses s) false (fly s) (pc s) (bad s)
              (log s) (fn s) (fs s) in
  match wrk s with
  | None => catch_stop s
  | Some i =>
      match ses s (cid s i) with
      | None => catch_stop s
      | Some k =>
          match rd s i with
          | [] => s
          | b => if ok
                 then mk (nds s) (cid s) (rd s) (wr s) (cur s) (wrk s) (ses s) (asy s)
                         (fly s ++ [(k, i, b)]) (pc s) (bad s) (log s) (fn s) (fs s)
                 else server_delete (say s (Failed k)) (cid s i)
          end
      end
  end.

(** the first write in flight to a session *)
Fixpoint landing (k : Z) (l : list (Z * Z * list Z)) : option (list Z * list (Z * Z * list Z)) :=
  match l with
  | [] => None
  | (j, i, b) :: t =>
      if j =? k then Some (b, t)
      else match landing k t with
           | Some (b', t') => Some (b', (j, i, b) :: t')
           | None => None
           end
  end.

(** cb_server_write_after, 781-817, for a write to session k *)
Definition write_after (s : st) (k : Z) (ok : bool) : st :=
  match wrk s with
  | None => s
  | Some i =>
      match ses s (cid s i) with
      | None => catch_del s (cid s i)
      | Some _ => if ok then catch_stop s else server_delete s (cid s i)
      end
  end.

Inductive act : Type :=
  | AConnect (c : Z)                 (* a client arrives and takes slot c *)
  | ASend (c : Z) (b : list Z)       (* any thread: sis_socket_server_send *)
  | AEnd (c : Z)                     (* the loop: the peer left, cb_server_read_after, 633-645 *)
  | AReader                          (* the reader thread goes on *)
  | AAsync (ok : bool)               (* the loop runs _cb_server_async_write *)
  | ADone (k : Z) (ok : bool).       (* the loop reports a write to session k *)

(** one step; None = not possible in this state *)
Definition step (a : act) (s : st) : option st :=
  match a with
  | AConnect c =>                                                     (* 661-701 *)
      match ses s c with
      | Some _ => None
      | None => Some (mk (nds s) (cid s) (rd s) (wr s) (cur s) (wrk s) (set (ses s) c (Some (fs s))) (asy s)
                         (fly s) (pc s) (bad s) (log s) (fn s) (fs s + 1))
      end
  | ASend c b =>                                                      (* 906-936 *)
      match ses s c with
      | None => Some s
      | Some k => Some (say (catch_push s c b) (Sent k b))
      end
  | AEnd c =>
      match ses s c with
      | None => Some (server_delete s c)
      | Some k => Some (server_delete (say s (Asked k)) c)
      end
  | AReader => Some (reader s)
  | AAsync ok => if asy s then Some (async_write s ok) else None
  | ADone k ok =>
      match landing k (fly s) with
      | None => None
      | Some (b, t) =>
          let s := mk (nds s) (cid s) (rd s) (wr s) (cur s) (wrk s) (ses s) (asy s) t (pc s) (bad s)
                      (log s) (fn s) (fs s) in
          Some (write_after (say s (if ok then Got k b else Failed k)) k ok)
      end
  end.

Fixpoint run (acts : list act) (s : st) : option st :=
  match acts with
  | [] => Some s
  | a :: t => match step a s with Some s' => run t s' | None => None end
  end.
