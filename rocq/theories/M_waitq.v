(** Model of the wait queue: s_sis_wait_queue, src/core/sis_list.lock.c:134-266, sis_list.lock.h:45-54.

    All accesses are made with the lock of the queue held, so a call is one step that needs the lock
    to be free; only the thread of the queue holds it longer, while the callback runs.  Nodes are
    numbered in the order they are linked, 0 is the first one (no object).  Simplifications: freed
    nodes are not used again; objects are not NULL; count does not wrap; the thread may run at any
    time (notices only make it run earlier). *)
From Verif Require Import Base S_waitq.

Record wq := mkwq {
  w_objs : list Z;                (* objects of the nodes 1, 2, ... *)
  w_next : nat -> option nat;
  w_head : nat; w_tail : nat; w_count : Z; w_busy : bool;
  w_cb : bool;                    (* the thread is in the callback: the lock is held *)
  w_stuck : bool;                 (* the callback waits for the lock *)
  w_pushed : list Z; w_given : list Z; w_done : nat; w_bad : bool }.

Inductive wact :=
| APush (m : Z)     (* sis_wait_queue_push by any thread *)
| AWork             (* a pass of _thread_wait_reader up to the callback *)
| AReturn           (* the callback returns, the lock is released *)
| ADone             (* set_busy(queue, 0) by a thread that has processed the object handed out last *)
| AInside.          (* the callback calls push or set_busy on its own queue *)

Definition wupd (f : nat -> option nat) (a : nat) (v : option nat) : nat -> option nat := fun k => if Nat.eqb k a then v else f k.
Definition wfreed (s : wq) (a : nat) : bool := (a <? w_head s)%nat.

(** sis_wait_queue_pop, :134-149; None: no object *)
Definition wpop (s : wq) : option (Z * wq) :=
  if 0 <? w_count s then
    match w_next s (w_head s) with
    | Some x => Some (nth (x - 1) (w_objs s) 0,
        mkwq (w_objs s) (w_next s) x (w_tail s) (w_count s - 1) (w_busy s) (w_cb s) (w_stuck s) (w_pushed s) (w_given s) (w_done s)
          (w_bad s || wfreed s x))
    | None => None
    end
  else None.

Definition wstep (s : wq) (a : wact) : option wq :=
  match a with
  | APush m => (* :231-251 *)
    if w_cb s then None else
    if negb (w_busy s) && (w_count s =? 0)
    then Some (mkwq (w_objs s) (w_next s) (w_head s) (w_tail s) (w_count s) true false (w_stuck s) (w_pushed s ++ [m]) (w_given s ++ [m]) (w_done s) (w_bad s))
    else let x := S (length (w_objs s)) in
      Some (mkwq (w_objs s ++ [m]) (wupd (wupd (w_next s) x None) (w_tail s) (Some x)) (w_head s) x (w_count s + 1) (w_busy s) false (w_stuck s)
        (w_pushed s ++ [m]) (w_given s) (w_done s) (w_bad s || wfreed s (w_tail s)))
  | AWork => (* :157-176 *)
    if w_cb s then None else
    if w_busy s then Some s else
    match wpop s with
    | None => Some s
    | Some (o, s') => Some (mkwq (w_objs s') (w_next s') (w_head s') (w_tail s') (w_count s') true true (w_stuck s') (w_pushed s') (w_given s' ++ [o]) (w_done s') (w_bad s'))
    end
  | AReturn => (* :174-176 *)
    if w_cb s && negb (w_stuck s)
    then Some (mkwq (w_objs s) (w_next s) (w_head s) (w_tail s) (w_count s) (w_busy s) false false (w_pushed s) (w_given s) (w_done s) (w_bad s)) else None
  | ADone => (* :255-266 *)
    if negb (w_cb s) && (w_done s <? length (w_given s))%nat
    then Some (mkwq (w_objs s) (w_next s) (w_head s) (w_tail s) (w_count s) false false (w_stuck s) (w_pushed s) (w_given s) (S (w_done s)) (w_bad s)) else None
  | AInside => (* the lock is a plain mutex: :235, :258 wait for ever *)
    if w_cb s && negb (w_stuck s)
    then Some (mkwq (w_objs s) (w_next s) (w_head s) (w_tail s) (w_count s) (w_busy s) true true (w_pushed s) (w_given s) (w_done s) (w_bad s)) else None
  end.

Fixpoint wstates (s : wq) (l : list wact) : option (list wq) :=
  match l with
  | [] => Some [s]
  | a :: l' =>
    match wstep s a with
    | None => None
    | Some s' => match wstates s' l' with Some r => Some (s :: r) | None => None end
    end
  end.

(** sis_wait_queue_create, :191-212 *)
Definition wstart : wq := mkwq [] (fun _ => None) 0 0 0 false false false [] [] 0 false.
Definition wsee (s : wq) : wview := mkwv (w_pushed s) (w_given s) (w_done s) (w_bad s).
