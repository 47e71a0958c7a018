(** Model of the pool of wait handles, src/core/sis_thread.c:4-42, with sis_thread_wait_init,
    src/os/linux/os_thread.c:385-389.

    Any number of threads; every access to the array and to the flag is a step of its own.  The
    contents of an entry besides [used] are left out.  [cap] is SIS_MAX_WAIT (0xFFFF). *)
From Verif Require Import Base S_wait.

Section Pool.
Variable cap : Z.

(** where a thread is in sis_wait_malloc, :8-28 *)
Inductive ppc :=
| POut
| PChk                (* :10 *)
| PFill (i : Z)       (* :12-16, before used = false of entry i *)
| PSet                (* :17 *)
| PScan (i : Z)       (* :19-21, before the test of entry i *)
| PTake (i : Z).      (* sis_thread_wait_init of entry i, :23 *)
Record pth := mkpt { p_pc : ppc; p_own : list Z; p_fails : nat (* calls that returned -1 *) }.
Record pool := mkpool { pl_init : bool; pl_used : Z -> bool; pl_th : list pth }.

Inductive pop := PCall | PGo | PFree (h : Z).

Definition pupd (f : Z -> bool) (k : Z) (v : bool) : Z -> bool := fun i => if i =? k then v else f i.
Fixpoint set_pt (l : list pth) (i : nat) (t : pth) : list pth :=
  match l, i with
  | [], _ => []
  | _ :: r, O => t :: r
  | x :: r, S k => x :: set_pt r k t
  end.
Fixpoint drop1 (h : Z) (l : list Z) : list Z :=
  match l with [] => [] | x :: r => if x =? h then r else x :: drop1 h r end.

Definition pstep (s : pool) (i : nat) (o : pop) : option pool :=
  match nth_error (pl_th s) i with
  | None => None
  | Some t =>
    let to p := set_pt (pl_th s) i (mkpt p (p_own t) (p_fails t)) in
    match p_pc t, o with
    | POut, PCall => Some (mkpool (pl_init s) (pl_used s) (to PChk))
    | POut, PFree h => (* sis_wait_free, :36-42, by the owner *)
      if existsb (Z.eqb h) (p_own t)
      then Some (mkpool (pl_init s) (if (0 <=? h) && (h <? cap) then pupd (pl_used s) h false else pl_used s)
                   (set_pt (pl_th s) i (mkpt POut (drop1 h (p_own t)) (p_fails t))))
      else None
    | PChk, PGo => Some (mkpool (pl_init s) (pl_used s) (to (if pl_init s then PScan 0 else PFill 0)))
    | PFill k, PGo => if k <? cap then Some (mkpool (pl_init s) (pupd (pl_used s) k false) (to (PFill (k + 1))))
                      else Some (mkpool (pl_init s) (pl_used s) (to PSet))
    | PSet, PGo => Some (mkpool true (pl_used s) (to (PScan 0)))
    | PScan k, PGo =>
      if k <? cap then Some (mkpool (pl_init s) (pl_used s) (to (if pl_used s k then PScan (k + 1) else PTake k)))
      else (* return -1 *) Some (mkpool (pl_init s) (pl_used s) (set_pt (pl_th s) i (mkpt POut (p_own t) (S (p_fails t)))))
    | PTake k, PGo => Some (mkpool (pl_init s) (pupd (pl_used s) k true) (set_pt (pl_th s) i (mkpt POut (k :: p_own t) (p_fails t))))
    | _, _ => None
    end
  end.

Fixpoint pstates (s : pool) (l : list (nat * pop)) : option (list pool) :=
  match l with
  | [] => Some [s]
  | a :: r => match pstep s (fst a) (snd a) with
              | None => None
              | Some s' => match pstates s' r with Some q => Some (s :: q) | None => None end
              end
  end.

Fixpoint prun (s : pool) (l : list (nat * pop)) : option pool :=
  match l with
  | [] => Some s
  | a :: r => match pstep s (fst a) (snd a) with Some s' => prun s' r | None => None end
  end.

(** static memory is zero at the start, :5-6; [n] threads *)
Definition pstart (n : nat) : pool := mkpool false (fun _ => false) (repeat (mkpt POut [] 0) n).
Definition psee (s : pool) : list (list Z) := map p_own (pl_th s).
End Pool.
