(** Model of the list with many readers: s_sis_lock_list, src/core/sis_list.lock.c:34-130 (queue) and
    425-803 (readers, watcher).

    Nodes are numbered in the order they are linked: node 0 is the first sentinel
    (sis_lock_queue_create, :34-41), node [k] carries the [k]-th message pushed.  The successor of [k] is
    [k + 1] if that message has been pushed.  Nodes below [b_h] = rhead are freed.  The functions of
    the queue run under its lock and are one step each; readers and the watcher interleave between
    them.  Simplifications: addresses of freed nodes are not used again; a message is released by
    the list alone (no other owner). *)
From Verif Require Import Base S_bcast.

(** SIS_UNLOCK_SAVE_ALL, _NONE, _SIZE: sis_list.lock.h:138-140; chosen in sis_lock_list_create, :727-740 *)
Inductive save := KeepAll | KeepNone | KeepSize.

(** a reader's thread, _thread_reader, :429-518 *)
Inductive rpc :=
| RIdle                   (* before sis_lock_queue_next of its cursor, or waiting *)
| RGot (x : nat)          (* next = x *)
| RUse (x : nat) (m : Z)  (* next->obj was not NULL: in the callback with it *)
| RSet (x : nat).         (* before cursor = next *)
Record reader := mkrd {
  r_head : bool;      (* SIS_UNLOCK_READER_HEAD; otherwise _TAIL *)
  r_reg : bool;       (* in ullist->users *)
  r_closed : bool;
  r_cur : option nat; (* cursor *)
  r_pc : rpc;
  r_from : option nat; r_open : option nat; r_out : list Z (* for the observer *) }.

(** the watcher's thread, _thread_watcher, :621-715 *)
Inductive wpc :=
| WIdle              (* waiting, watchlock free *)
| WNext              (* next = sis_lock_queue_next of its cursor *)
| WCheck (i : nat)   (* _unlock_check_user_cursor, :600-615, at user i, userslock held *)
| WPop               (* no user is at the cursor *)
| WRel (k : nat)     (* the message of node k is to be released *)
| WMove.             (* cursor = next *)
Record bst := mkb {
  b_msgs : list Z; b_null : list nat (* nodes whose obj is NULL *); b_h : nat (* rhead *);
  b_rel : nat (* messages up to this one are released *);
  b_w : option nat (* watcher's cursor *); b_wpc : wpc; b_size : Z (* cursize *);
  b_rd : list reader; b_bad : bool }.

Inductive bact := BPush (m : Z) | BOpen (head : bool) | BReg (i : nat) | BRead (i : nat) | BWatch | BClose (i : nat) | BClear.

Definition last_node (s : bst) : nat := length (b_msgs s).
Definition msg (s : bst) (k : nat) : Z := nth (k - 1) (b_msgs s) 0.
Definition freed (s : bst) (k : nat) : bool := (k <? b_h s)%nat.
Definition is_null (s : bst) (k : nat) : bool := existsb (Nat.eqb k) (b_null s).

Fixpoint set_rd (l : list reader) (i : nat) (r : reader) : list reader :=
  match l, i with
  | [], _ => []
  | _ :: l', O => r :: l'
  | x :: l', S i' => x :: set_rd l' i' r
  end.
(** reader [i] becomes [r]; [bad]: freed memory was touched *)
Definition with_rd (s : bst) (i : nat) (r : reader) (bad : bool) : bst :=
  mkb (b_msgs s) (b_null s) (b_h s) (b_rel s) (b_w s) (b_wpc s) (b_size s) (set_rd (b_rd s) i r) (b_bad s || bad).
Definition with_w (s : bst) (w : option nat) (p : wpc) (bad : bool) : bst :=
  mkb (b_msgs s) (b_null s) (b_h s) (b_rel s) w p (b_size s) (b_rd s) (b_bad s || bad).
Definition at_pc (r : reader) (p : rpc) : reader :=
  mkrd (r_head r) (r_reg r) (r_closed r) (r_cur r) p (r_from r) (r_open r) (r_out r).

(** one step of a reader, :444-483 *)
Definition read_step (s : bst) (i : nat) (r : reader) : bst :=
  match r_pc r with
  | RIdle =>
    match r_cur r with
    | None => (* sis_lock_queue_head or _tail, :62-90 *)
      let c := if r_head r then b_h s else last_node s in
      with_rd s i (mkrd (r_head r) (r_reg r) (r_closed r) (Some c) RIdle (Some c) (r_open r) (r_out r)) false
    | Some c => (* sis_lock_queue_next, :92-99 *)
      if (c <? last_node s)%nat then with_rd s i (at_pc r (RGot (S c))) (freed s c)
      else with_rd s i r (freed s c)
    end
  | RGot x => with_rd s i (at_pc r (if is_null s x then RSet x else RUse x (msg s x))) (freed s x)
  | RUse x m =>
    with_rd s i (mkrd (r_head r) (r_reg r) (r_closed r) (r_cur r) (RSet x) (r_from r) (r_open r) (r_out r ++ [m]))
      (x <=? b_rel s)%nat
  | RSet x => with_rd s i (mkrd (r_head r) (r_reg r) (r_closed r) (Some x) RIdle (r_from r) (r_open r) (r_out r)) false
  end.

Section Watch.
Variables (mode : save) (maxsize : Z) (size : Z -> Z). (* size of a message with its object *)

(** sis_lock_queue_pop, :115-130, with cursize [sz]; the message is released in a step of its own *)
Definition pop (s : bst) (sz : Z) (bad : bool) : option bst :=
  if (b_h s <? last_node s)%nat
  then Some (mkb (b_msgs s) (S (b_h s) :: b_null s) (S (b_h s)) (b_rel s) (b_w s) (WRel (S (b_h s))) sz (b_rd s) (b_bad s || bad))
  else None.

(** one step of the watcher, :659-708 *)
Definition watch_step (s : bst) : option bst :=
  match b_wpc s with
  | WIdle =>
    match mode with
    | KeepAll => Some s
    | _ =>
      match (match b_w s with None => if (b_h s <? last_node s)%nat then Some (S (b_h s)) else None | c => c end) with
      | None => Some s
      | Some c => Some (with_w s (Some c) WNext false)
      end
    end
  | p =>
    match b_w s with
    | None => None
    | Some c =>
      match p with
      | WIdle => None
      | WNext => Some (with_w s (Some c) (if (c <? last_node s)%nat then WCheck 0 else WIdle) (freed s c))
      | WCheck i =>
        match nth_error (b_rd s) i with
        | Some r => if r_reg r && match r_cur r with Some c' => Nat.eqb c' c | None => false end
                    then Some (with_w s (Some c) WIdle false)
                    else Some (with_w s (Some c) (WCheck (S i)) false)
        | None => Some (with_w s (Some c) WPop false)
        end
      | WPop =>
        match mode with
        | KeepSize =>
          let sz := if is_null s c then b_size s else b_size s + size (msg s c) in
          if maxsize <? sz then pop s (sz - size (msg s (S (b_h s)))) (freed s c)
          else Some (mkb (b_msgs s) (b_null s) (b_h s) (b_rel s) (b_w s) WMove sz (b_rd s) (b_bad s || freed s c))
        | _ => pop s (b_size s) false
        end
      | WRel k => Some (mkb (b_msgs s) (b_null s) (b_h s) k (b_w s) WMove (b_size s) (b_rd s) (b_bad s))
      | WMove => Some (with_w s (Some (S c)) WNext false)
      end
    end
  end.

Definition in_check (p : wpc) : bool := match p with WCheck _ => true | _ => false end.

Definition bstep (s : bst) (a : bact) : option bst :=
  match a with
  | BPush m => (* sis_lock_list_push, :782-790 *)
    Some (mkb (b_msgs s ++ [m]) (b_null s) (b_h s) (b_rel s) (b_w s) (b_wpc s) (b_size s) (b_rd s) (b_bad s))
  | BOpen head => (* sis_lock_reader_open, :568-577: its thread runs *)
    Some (mkb (b_msgs s) (b_null s) (b_h s) (b_rel s) (b_w s) (b_wpc s) (b_size s)
      (b_rd s ++ [mkrd head false false None RIdle None None []]) (b_bad s))
  | BReg i => (* :579-583: it is put among the users, open returns *)
    match nth_error (b_rd s) i with
    | Some r => if in_check (b_wpc s) || r_reg r || r_closed r then None
                else Some (with_rd s i (mkrd (r_head r) true false (r_cur r) (r_pc r) (r_from r) (Some (last_node s)) (r_out r)) false)
    | None => None
    end
  | BRead i =>
    match nth_error (b_rd s) i with
    | Some r => if r_closed r then None else Some (read_step s i r)
    | None => None
    end
  | BWatch => watch_step s
  | BClose i => (* sis_lock_reader_close, :586-594; it waits for the thread *)
    match nth_error (b_rd s) i, in_check (b_wpc s) with
    | Some r, false =>
      match r_reg r, r_pc r with
      | true, RIdle => Some (with_rd s i (mkrd (r_head r) false true (r_cur r) RIdle (r_from r) (r_open r) (r_out r)) false)
      | _, _ => None
      end
    | _, _ => None
    end
  | BClear => (* sis_lock_list_clear, :791-803, sis_lock_queue_clear, :42-54 *)
    match mode, b_wpc s with
    | KeepNone, _ => Some s
    | _, WIdle => Some (mkb (b_msgs s) (b_null s) (last_node s) (last_node s) None WIdle 0 (b_rd s) (b_bad s))
    | _, _ => None
    end
  end.

(** the states met while running a schedule *)
Fixpoint bstates (s : bst) (l : list bact) : option (list bst) :=
  match l with
  | [] => Some [s]
  | a :: l' =>
    match bstep s a with
    | None => None
    | Some s' => match bstates s' l' with Some r => Some (s :: r) | None => None end
    end
  end.
End Watch.

(** sis_lock_list_create, :721-758 *)
Definition bstart : bst := mkb [] [] 0 0 None WIdle 0 [] false.

Definition bsee (s : bst) : bview :=
  mkbv (b_msgs s) (map (fun r => mkrv (r_open r) (r_from r) (r_out r)) (b_rd s)) (b_bad s).
