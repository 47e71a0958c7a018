(** Model of the queue with a write list and a read list: s_sis_fast_queue, src/core/sis_list.lock.c:272-422,
    sis_list.lock.h:61-78.

    Any number of threads; a thread that is not in a call may begin any call.  Every access to shared
    memory is a step of its own.  Address 0 is the first node of the write list (whead, never
    changed), address 1 the first node of the read list; a node gets its address when it is linked
    (before, only its thread can see it).  Simplifications: addresses of freed nodes are not used
    again; memory is sequentially consistent; wnums does not wrap; rnums is left out (nothing reads it). *)
From Verif Require Import Base S_fastq.

(** [d]: objects are given to the callback (_thread_fast_reader); otherwise discarded (sis_fast_queue_clear) *)
Inductive fpc :=
| FIdle
(* sis_fast_queue_push, :413-422 *)
| PWait (m : Z) | PLink (m : Z) | PTail (a : nat) | PNum | PUnl
(* _fast_queue_move, :272-286, with the write lock *)
| MWait | MChk (d : bool) | M1 (d : bool) | M2 (d : bool) | M3 (d : bool) | M4 (d : bool) | M5 (d : bool) | MUnl (d : bool)
(* the loop over the read list, :309-336 and :399-411 *)
| DWait (d : bool) | D0 (d : bool) | DLoop (d : bool) (a : nat) | DCall (d : bool) (a x : nat) | DFree (d : bool) (a x : nat)
| DHead (d : bool) (x : nat) | DUnl.
Record fth := mkft { t_pc : fpc; t_calls : list Z }.
Record fqs := mkfq {
  q_cells : list (nat * Z);       (* producer and object of the nodes 2, 3, ... *)
  q_next : nat -> option nat;     (* next of every node *)
  q_freed : list nat;
  q_rhead : nat; q_rtail : nat; q_wtail : nat; q_wnums : Z;
  q_wl : option nat; q_rl : option nat;   (* owners of wlock and rlock *)
  q_th : list fth; q_taken : list (nat * Z * bool); q_bad : bool }.

Inductive fop := OPush (m : Z) | ORead | OClear | OGo.
Definition whead : nat := 0.

Fixpoint set_ft (l : list fth) (i : nat) (t : fth) : list fth :=
  match l, i with
  | [], _ => []
  | _ :: l', O => t :: l'
  | x :: l', S i' => x :: set_ft l' i' t
  end.
Definition upd (f : nat -> option nat) (a : nat) (v : option nat) : nat -> option nat := fun k => if Nat.eqb k a then v else f k.
Definition isfreed (s : fqs) (a : nat) : bool := existsb (Nat.eqb a) (q_freed s).

(** changes of parts of the state; [to]: the thread goes to a new place *)
Definition to (s : fqs) (i : nat) (t : fth) (p : fpc) : fqs :=
  mkfq (q_cells s) (q_next s) (q_freed s) (q_rhead s) (q_rtail s) (q_wtail s) (q_wnums s) (q_wl s) (q_rl s)
    (set_ft (q_th s) i (mkft p (t_calls t))) (q_taken s) (q_bad s).
Definition with_wl (s : fqs) (o : option nat) : fqs :=
  mkfq (q_cells s) (q_next s) (q_freed s) (q_rhead s) (q_rtail s) (q_wtail s) (q_wnums s) o (q_rl s) (q_th s) (q_taken s) (q_bad s).
Definition with_rl (s : fqs) (o : option nat) : fqs :=
  mkfq (q_cells s) (q_next s) (q_freed s) (q_rhead s) (q_rtail s) (q_wtail s) (q_wnums s) (q_wl s) o (q_th s) (q_taken s) (q_bad s).
(** [a]->next = v *)
Definition put_next (s : fqs) (a : nat) (v : option nat) : fqs :=
  mkfq (q_cells s) (upd (q_next s) a v) (q_freed s) (q_rhead s) (q_rtail s) (q_wtail s) (q_wnums s) (q_wl s) (q_rl s) (q_th s) (q_taken s)
    (q_bad s || isfreed s a).
Definition with_ptrs (s : fqs) (rh rt wt : nat) (n : Z) : fqs :=
  mkfq (q_cells s) (q_next s) (q_freed s) rh rt wt n (q_wl s) (q_rl s) (q_th s) (q_taken s) (q_bad s).
Definition touch (s : fqs) (a : nat) : fqs :=
  mkfq (q_cells s) (q_next s) (q_freed s) (q_rhead s) (q_rtail s) (q_wtail s) (q_wnums s) (q_wl s) (q_rl s) (q_th s) (q_taken s) (q_bad s || isfreed s a).
(** a new node, sis_unlock_node_create, :7-17 *)
Definition new_node (s : fqs) (i : nat) (m : Z) : fqs :=
  mkfq (q_cells s ++ [(i, m)]) (upd (q_next s) (length (q_cells s) + 2) None) (q_freed s) (q_rhead s) (q_rtail s) (q_wtail s) (q_wnums s)
    (q_wl s) (q_rl s) (q_th s) (q_taken s) (q_bad s).
(** sis_unlock_node_destroy, :18-25 *)
Definition free_node (s : fqs) (a : nat) : fqs :=
  mkfq (q_cells s) (q_next s) (a :: q_freed s) (q_rhead s) (q_rtail s) (q_wtail s) (q_wnums s) (q_wl s) (q_rl s) (q_th s) (q_taken s)
    (q_bad s || isfreed s a).
(** the object of node [x] is given to the callback or released *)
Definition take (s : fqs) (x : nat) (d : bool) : fqs :=
  mkfq (q_cells s) (q_next s) (q_freed s) (q_rhead s) (q_rtail s) (q_wtail s) (q_wnums s) (q_wl s) (q_rl s) (q_th s)
    (q_taken s ++ [(nth (x - 2) (q_cells s) (0%nat, 0), d)]) (q_bad s || isfreed s x).

Definition fstep (s : fqs) (i : nat) (o : fop) : option fqs :=
  match nth_error (q_th s) i with
  | None => None
  | Some t =>
    match t_pc t, o with
    | FIdle, OPush m => Some (to s i (mkft FIdle (t_calls t ++ [m])) (PWait m))
    | FIdle, ORead => (* trylock, :302 *)
      match q_wl s with
      | None => Some (to (with_wl s (Some i)) i t (MChk true))
      | Some _ => Some (to s i t (DWait true))
      end
    | FIdle, OClear => Some (to s i t MWait)
    (* push *)
    | PWait m, OGo => match q_wl s with None => Some (to (with_wl s (Some i)) i t (PLink m)) | Some _ => None end
    | PLink m, OGo => (* wtail->next = new_node, :417 *)
      let a := (length (q_cells s) + 2)%nat in
      Some (to (put_next (new_node s i m) (q_wtail s) (Some a)) i t (PTail a))
    | PTail a, OGo => Some (to (with_ptrs s (q_rhead s) (q_rtail s) a (q_wnums s)) i t PNum)
    | PNum, OGo => Some (to (with_ptrs s (q_rhead s) (q_rtail s) (q_wtail s) (q_wnums s + 1)) i t PUnl)
    | PUnl, OGo => Some (to (with_wl s None) i t FIdle)
    (* move *)
    | MWait, OGo => match q_wl s with None => Some (to (with_wl s (Some i)) i t (MChk false)) | Some _ => None end
    | MChk d, OGo => Some (to s i t (if q_wnums s <? 1 then MUnl d else M1 d))
    | M1 d, OGo => Some (to (put_next s (q_rtail s) (q_next s whead)) i t (M2 d))
    | M2 d, OGo => Some (to (with_ptrs s (q_rhead s) (q_wtail s) (q_wtail s) (q_wnums s)) i t (M3 d))
    | M3 d, OGo => Some (to (put_next s whead None) i t (M4 d))
    | M4 d, OGo => Some (to (with_ptrs s (q_rhead s) (q_rtail s) whead (q_wnums s)) i t (M5 d))
    | M5 d, OGo => Some (to (with_ptrs s (q_rhead s) (q_rtail s) (q_wtail s) 0) i t (MUnl d))
    | MUnl d, OGo => Some (to (with_wl s None) i t (DWait d))
    (* the loop *)
    | DWait d, OGo => match q_rl s with None => Some (to (with_rl s (Some i)) i t (D0 d)) | Some _ => None end
    | D0 d, OGo => Some (to s i t (DLoop d (q_rhead s)))
    | DLoop d a, OGo => Some (to (touch s a) i t (match q_next s a with None => DUnl | Some x => DCall d a x end))
    | DCall d a x, OGo => Some (to (take s x d) i t (DFree d a x))
    | DFree d a x, OGo => Some (to (free_node s a) i t (DHead d x))
    | DHead d x, OGo => Some (to (with_ptrs s x (q_rtail s) (q_wtail s) (q_wnums s)) i t (DLoop d x))
    | DUnl, OGo => Some (to (with_rl s None) i t FIdle)
    | _, _ => None
    end
  end.

Fixpoint fstates (s : fqs) (l : list (nat * fop)) : option (list fqs) :=
  match l with
  | [] => Some [s]
  | a :: l' =>
    match fstep s (fst a) (snd a) with
    | None => None
    | Some s' => match fstates s' l' with Some r => Some (s :: r) | None => None end
    end
  end.

(** sis_fast_queue_create, :351-381; [n] threads *)
Definition fstart (n : nat) : fqs :=
  mkfq [] (fun _ => None) [] 1 1 whead 0 None None (repeat (mkft FIdle []) n) [] false.
Definition fsee (s : fqs) : fview := mkfv (map t_calls (q_th s)) (q_taken s) (q_bad s).
