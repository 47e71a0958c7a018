(** Model of s_sis_mutex_rw, src/core/sis_thread.c:45-139, sis_thread.h:17-22.

    Every function works on the fields with mutex_s held from its first to its last access, so such a
    section is one step; a thread that waits repeats its section (after sis_sleep).  Any number of
    threads.  An assert that fails stops the program: None. *)
From Verif Require Import Base S_rwlock.

(** where a thread is: outside, in the loop of lock_r or lock_w, or owner of the lock *)
Inductive lpc := LOut | LWaitR | LWaitW | LHasR | LHasW.
Record rwst := mkrw { rw_try : bool (* try_write_b *); rw_reads : Z; rw_writes : Z; rw_th : list lpc }.

Inductive lop := CallR | CallW | TryR | TryW | Again | Release.

Fixpoint set_pc (l : list lpc) (i : nat) (p : lpc) : list lpc :=
  match l, i with
  | [], _ => []
  | _ :: r, O => p :: r
  | x :: r, S k => x :: set_pc r k p
  end.

(** one turn of sis_mutex_rw_lock_r, :61-78, or all of sis_mutex_rw_try_lock_r, :80-93; [fail]: place after no success.
    reads_i and writes_i are int, sis_thread.h:20-21 *)
Definition take_r (s : rwst) (i : nat) (fail : lpc) : option rwst :=
  if rw_try s || (0 <? rw_writes s) then Some (mkrw (rw_try s) (rw_reads s) (rw_writes s) (set_pc (rw_th s) i fail))
  else if rw_reads s <? 0 then None
  else Some (mkrw (rw_try s) (to_s 32 (rw_reads s + 1)) (rw_writes s) (set_pc (rw_th s) i LHasR)).

(** one turn of sis_mutex_rw_lock_w, :118-136, or all of sis_mutex_rw_try_lock_w, :103-117 *)
Definition take_w (s : rwst) (i : nat) (fail : lpc) : option rwst :=
  if (0 <? rw_reads s) || (0 <? rw_writes s) then Some (mkrw true (rw_reads s) (rw_writes s) (set_pc (rw_th s) i fail))
  else if rw_writes s <? 0 then None
  else Some (mkrw false (rw_reads s) (to_s 32 (rw_writes s + 1)) (set_pc (rw_th s) i LHasW)).

(** None: the operation is not possible for the thread, or an assert fails *)
Definition rwstep (s : rwst) (i : nat) (o : lop) : option rwst :=
  match nth_error (rw_th s) i with
  | None => None
  | Some p =>
    match p, o with
    | LOut, CallR => take_r s i LWaitR
    | LOut, TryR => take_r s i LOut
    | LOut, CallW => take_w s i LWaitW
    | LOut, TryW => take_w s i LOut
    | LWaitR, Again => take_r s i LWaitR
    | LWaitW, Again => take_w s i LWaitW
    | LHasR, Release => (* sis_mutex_rw_unlock_r, :95-102 *)
      let n := to_s 32 (rw_reads s - 1) in
      if n <? 0 then None else Some (mkrw (rw_try s) n (rw_writes s) (set_pc (rw_th s) i LOut))
    | LHasW, Release => (* sis_mutex_rw_unlock_w, :138-145 *)
      let n := to_s 32 (rw_writes s - 1) in
      if n <? 0 then None else Some (mkrw (rw_try s) (rw_reads s) n (set_pc (rw_th s) i LOut))
    | _, _ => None
    end
  end.

Fixpoint rwrun (s : rwst) (l : list (nat * lop)) : option rwst :=
  match l with
  | [] => Some s
  | a :: r => match rwstep s (fst a) (snd a) with Some s' => rwrun s' r | None => None end
  end.

(** sis_mutex_rw_create, :48-55; [n] threads *)
Definition rwstart (n : nat) : rwst := mkrw false 0 0 (repeat LOut n).
Definition holds (p : lpc) : hold := match p with LHasR => HRead | LHasW => HWrite | _ => HNone end.
Definition rwsee (s : rwst) : list hold := map holds (rw_th s).
