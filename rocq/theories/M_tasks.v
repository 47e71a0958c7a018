(** Model of worker threads: src/core/sis_mul_worker.c 6-144 (a pool of threads, tasks by key) and 150-301 (one thread with
    two lists); src/core/sis_math.h 271-284; src/core/sis_list.c 1577-1601, 1640-1647, 1697-1706, 1725-1747; src/core/
    sis_thread.c 159-172, 213-222, 236-241.

    Threads are interleaved: one step is one access to the memory that others see.  Simplifications: memory is sequentially
    consistent; counters do not wrap; a thread that sleeps may wake at any time (notices only make it wake earlier); tasks
    are numbers; freeing the argument of a task and the task itself is one step. *)
From Verif Require Import Base S_tasks.

(** ** one thread with two lists, s_sis_worker_tasks *)
(** where the thread is, _sis_worker_tasks_read 150-168 and _thread_worker 169-202 *)
Inductive wpc :=
| WCheck                            (* 152: rnums is looked at *)
| WTry                              (* 156: sis_mutex_trylock *)
| WNums | WList | WZero | WNull     (* 158, 159-160, 161, 162-163, with the lock *)
| WFree                             (* 164-165: the lock is given back *)
| WLoop (todo : list Z)             (* 182: next *)
| WRun (t : Z) (todo : list Z)      (* 185 done, the task is to be freed *)
| WDrop (todo : list Z)             (* 191: rnums-- *)
| WEnd1 | WEnd2                     (* 194-195, 196 *)
| WSleep.                           (* 198 *)
(** a caller of sis_worker_tasks_add_task inside the lock, 262-279 *)
Inductive ppc := PNone | PNums (t : Z) | PLink (t : Z) | PUnlock.
(** sis_worker_tasks_wait, 290-301: the first of the two counters has been read *)
Inductive qpc := QNone | QStart | QRead (v : Z) | QDone.
Record tq := mktq {
  q_wl : list Z; q_wn : Z;          (* whead and the tasks linked to it, wnums *)
  q_rl : list Z; q_rn : Z;          (* rhead and the tasks linked to it, rnums *)
  q_lock : bool; q_ready : bool;    (* the mutex; sis_mutex_init has been called *)
  q_pc : wpc; q_add : ppc; q_wait : qpc;
  q_added : list Z; q_ran : list Z; q_freed : list Z;
  q_must : list Z }.                (* what was added when the waiting began *)
Inductive tact := TWork | TInit | TAdd (t : Z) | TNext | TWait | TDestroy.
Definition set_pc (s : tq) (p : wpc) : tq :=
  mktq (q_wl s) (q_wn s) (q_rl s) (q_rn s) (q_lock s) (q_ready s) p (q_add s) (q_wait s) (q_added s) (q_ran s) (q_freed s) (q_must s).
Definition set_lock (s : tq) (b : bool) (p : wpc) : tq :=
  mktq (q_wl s) (q_wn s) (q_rl s) (q_rn s) b (q_ready s) p (q_add s) (q_wait s) (q_added s) (q_ran s) (q_freed s) (q_must s).
Definition set_r (s : tq) (l : list Z) (n : Z) (p : wpc) : tq :=
  mktq (q_wl s) (q_wn s) l n (q_lock s) (q_ready s) p (q_add s) (q_wait s) (q_added s) (q_ran s) (q_freed s) (q_must s).
Definition set_w (s : tq) (l : list Z) (n : Z) (p : wpc) : tq :=
  mktq l n (q_rl s) (q_rn s) (q_lock s) (q_ready s) p (q_add s) (q_wait s) (q_added s) (q_ran s) (q_freed s) (q_must s).
(** one step of the thread *)
Definition work (s : tq) : tq :=
  match q_pc s with
  | WCheck => if 0 <? q_rn s then set_pc s (WLoop (q_rl s)) else set_pc s WTry
  | WTry => if q_lock s then set_pc s WSleep else set_lock s true WNums
  | WNums => set_r s (q_rl s) (q_wn s) WList
  | WList => set_r s (q_wl s) (q_rn s) WZero
  | WZero => set_w s (q_wl s) 0 WNull
  | WNull => set_w s [] (q_wn s) WFree
  | WFree => set_lock s false (if 0 <? q_rn s then WLoop (q_rl s) else WSleep)
  | WLoop [] => set_pc s WEnd1
  | WLoop (t :: todo) =>
    mktq (q_wl s) (q_wn s) (q_rl s) (q_rn s) (q_lock s) (q_ready s) (WRun t todo) (q_add s) (q_wait s) (q_added s) (q_ran s ++ [t]) (q_freed s) (q_must s)
  | WRun t todo =>
    mktq (q_wl s) (q_wn s) (q_rl s) (q_rn s) (q_lock s) (q_ready s) (WDrop todo) (q_add s) (q_wait s) (q_added s) (q_ran s) (q_freed s ++ [t]) (q_must s)
  | WDrop todo => set_r s (q_rl s) (q_rn s - 1) (WLoop todo)
  | WEnd1 => set_r s [] (q_rn s) WEnd2
  | WEnd2 => set_r s (q_rl s) 0 WCheck
  | WSleep => set_pc s WCheck
  end.
(** one step of the caller inside sis_worker_tasks_add_task, 263, 264-278, 279 *)
Definition add_next (s : tq) : option tq :=
  match q_add s with
  | PNone => None
  | PNums t => Some (mktq (q_wl s) (q_wn s + 1) (q_rl s) (q_rn s) (q_lock s) (q_ready s) (q_pc s) (PLink t) (q_wait s) (q_added s) (q_ran s) (q_freed s) (q_must s))
  | PLink t => Some (mktq (q_wl s ++ [t]) (q_wn s) (q_rl s) (q_rn s) (q_lock s) (q_ready s) (q_pc s) PUnlock (q_wait s) (q_added s ++ [t]) (q_ran s) (q_freed s) (q_must s))
  | PUnlock => Some (mktq (q_wl s) (q_wn s) (q_rl s) (q_rn s) false (q_ready s) (q_pc s) PNone (q_wait s) (q_added s) (q_ran s) (q_freed s) (q_must s))
  end.
Definition set_wait (s : tq) (q : qpc) (m : list Z) : tq :=
  mktq (q_wl s) (q_wn s) (q_rl s) (q_rn s) (q_lock s) (q_ready s) (q_pc s) (q_add s) q (q_added s) (q_ran s) (q_freed s) m.
(** one step of a caller of sis_worker_tasks_wait; C does not say which operand of 294, rnums + wnums, is read first:
    [wfirst], wnums *)
Definition wait_next (wfirst : bool) (s : tq) : option tq :=
  match q_wait s with
  | QNone => Some (set_wait s QStart (q_added s))
  | QStart => Some (set_wait s (QRead (if wfirst then q_wn s else q_rn s)) (q_must s))
  | QRead v => Some (set_wait s (if v + (if wfirst then q_rn s else q_wn s) <? 1 then QDone else QStart) (q_must s))
  | QDone => None
  end.
(** a step of anyone; TInit: 214, the lock is set to free by the thread that creates; TAdd: 262, the lock is taken; TDestroy:
    221-248, what is linked to rhead and to whead is freed *)
Definition tstep (wfirst : bool) (a : tact) (s : tq) : option tq :=
  match a with
  | TWork => Some (work s)
  | TInit => if q_ready s then None else
      Some (mktq (q_wl s) (q_wn s) (q_rl s) (q_rn s) false true (q_pc s) (q_add s) (q_wait s) (q_added s) (q_ran s) (q_freed s) (q_must s))
  | TAdd t => if q_ready s && negb (q_lock s) then
      match q_add s with
      | PNone => Some (mktq (q_wl s) (q_wn s) (q_rl s) (q_rn s) true (q_ready s) (q_pc s) (PNums t) (q_wait s) (q_added s) (q_ran s) (q_freed s) (q_must s))
      | _ => None
      end else None
  | TNext => add_next s
  | TWait => wait_next wfirst s
  | TDestroy => match q_wait s with
      | QDone => if q_lock s then None else
          Some (mktq (q_wl s) (q_wn s) (q_rl s) (q_rn s) (q_lock s) (q_ready s) (q_pc s) (q_add s) QNone (q_added s) (q_ran s) (q_freed s ++ q_rl s ++ q_wl s) (q_must s))
      | _ => None
      end
  end.
Fixpoint trun (wfirst : bool) (l : list tact) (s : tq) : option tq :=
  match l with [] => Some s | a :: l' => match tstep wfirst a s with None => None | Some s' => trun wfirst l' s' end end.
(** sis_worker_tasks_create, 204-216: the thread runs before the lock is initialised *)
Definition tcreate : tq := mktq [] 0 [] 0 false false WCheck PNone QNone [] [] [] [].
(** .. the thread has not looked at the lock when it is initialised *)
Definition tready : tq := mktq [] 0 [] 0 false true WCheck PNone QNone [] [] [] [].

(** ** a pool of threads, s_sis_mul_worker_cxt *)
(** sis_get_hash, sis_math.h:271-284, of a C string *)
Definition get_hash (k : list Z) (n : Z) : Z := if n <? 1 then 0 else (fold_left (fun i c => i + c mod n) k 0) mod n.
Inductive mpc := MTop | MCheck | MGet | MRun (t : list Z * Z) | MFree (t : list Z * Z) | MSleep | MStop.
Record mworker := mkmw { m_tasks : list (list Z * Z); m_exit : bool; m_pc : mpc }.
(** the pool; the caller of sis_mul_worker_cxt_wait is at thread m_scan, 131; m_must, what was added when the waiting began *)
Record mpool := mkmp { m_ws : list mworker; m_added : list (list Z * Z); m_ran : list (list Z * Z); m_done : list (list Z * Z);
                       m_scan : option nat; m_over : bool; m_must : list (list Z * Z) }.
Inductive mact := MWork (i : nat) | MAdd (k : list Z) (t : Z) | MWait | MExit (i : nat).
Definition set_worker (ws : list mworker) (i : nat) (w : mworker) : list mworker := firstn i ws ++ w :: skipn (S i) ws.
(** sis_mul_worker_cxt_add_task, 98-110, with sis_mul_worker_thread_add_task, 59-70: pushing is done with the lock; the count
    is the last thing that changes *)
Definition madd (p : mpool) (k : list Z) (t : Z) : mpool :=
  let i := Z.to_nat (get_hash k (Z.of_nat (List.length (m_ws p)))) in
  match nth_error (m_ws p) i with
  | Some w => mkmp (set_worker (m_ws p) i (mkmw (m_tasks w ++ [(k, t)]) (m_exit w) (m_pc w))) (m_added p ++ [(k, t)]) (m_ran p) (m_done p) (m_scan p) (m_over p) (m_must p)
  | None => p
  end.
Fixpoint madds (p : mpool) (l : list (list Z * Z)) : mpool := match l with [] => p | (k, t) :: l' => madds (madd p k t) l' end.
Definition with_worker (p : mpool) (i : nat) (w : mworker) : mpool :=
  mkmp (set_worker (m_ws p) i w) (m_added p) (m_ran p) (m_done p) (m_scan p) (m_over p) (m_must p).
(** _thread_mul_worker, 6-35, one step of thread i; [spawn], the tasks a task adds while it runs; None: a null pointer is used.
    MCheck: 16, without the lock; MGet: 18-20; MRun: 22 and 25; MFree: 27-29 *)
Definition mwork (spawn : Z -> list (list Z * Z)) (p : mpool) (i : nat) : option mpool :=
  match nth_error (m_ws p) i with
  | None => Some p
  | Some w =>
    let go := fun ts pc => with_worker p i (mkmw ts (m_exit w) pc) in
    match m_pc w with
    | MTop => Some (go (m_tasks w) (if m_exit w then MStop else MCheck))
    | MCheck => Some (go (m_tasks w) (if 0 <? Z.of_nat (List.length (m_tasks w)) then MGet else MSleep))
    | MGet => match m_tasks w with t :: _ => Some (go (m_tasks w) (MRun t)) | [] => None end
    | MRun t =>
      let p1 := go (m_tasks w) (MFree t) in
      Some (madds (mkmp (m_ws p1) (m_added p1) (m_ran p1 ++ [t]) (m_done p1) (m_scan p1) (m_over p1) (m_must p1)) (spawn (snd t)))
    | MFree t =>
      let p1 := go (skipn 1 (m_tasks w)) MCheck in
      Some (mkmp (m_ws p1) (m_added p1) (m_ran p1) (m_done p1 ++ [t]) (m_scan p1) (m_over p1) (m_must p1))
    | MSleep => Some (go (m_tasks w) MTop)
    | MStop => Some p
    end
  end.
(** one step of sis_mul_worker_cxt_wait, 125-144 *)
Definition mwait (p : mpool) : mpool :=
  let at_ := fun s o m => mkmp (m_ws p) (m_added p) (m_ran p) (m_done p) s o m in
  match m_scan p with
  | None => if m_over p then p else at_ (Some 0%nat) false (m_added p)
  | Some i => match nth_error (m_ws p) i with
              | None => at_ None true (m_must p)
              | Some w => if 0 <? Z.of_nat (List.length (m_tasks w)) then at_ (Some 0%nat) false (m_must p) else at_ (Some (S i)) false (m_must p)
              end
  end.
(** MExit: sis_wait_thread_destroy, sis_thread.c:159-172, asks thread i to end, sis_mul_worker.c:55 *)
Definition mstep (spawn : Z -> list (list Z * Z)) (a : mact) (p : mpool) : option mpool :=
  match a with
  | MWork i => mwork spawn p i
  | MAdd k t => Some (madd p k t)
  | MWait => Some (mwait p)
  | MExit i => match nth_error (m_ws p) i with None => Some p | Some w => Some (with_worker p i (mkmw (m_tasks w) true (m_pc w))) end
  end.
Fixpoint mrun (spawn : Z -> list (list Z * Z)) (l : list mact) (p : mpool) : option mpool :=
  match l with [] => Some p | a :: l' => match mstep spawn a p with None => None | Some p' => mrun spawn l' p' end end.
(** sis_mul_worker_cxt_create, 72-83 *)
Definition mcreate (nums : Z) : mpool :=
  mkmp (repeat (mkmw [] false MTop) (Z.to_nat (Z.max 1 (Z.min nums 64)))) [] [] [] None false [].
