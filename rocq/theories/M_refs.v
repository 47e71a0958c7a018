(** Model of reference counts: objects (src/core/sis_obj.c), network messages
    (src/core/net/sis_net.msg.c) and table definitions (src/core/sis_dynamic.c).

    One object shared by any number of threads; every step is one access to its memory, in
    sequentially consistent order.  A thread starts an operation only on an object it owns a
    reference to.  The content is not modelled, only whether the object is still allocated. *)
From Verif Require Import Base S_refs.

Definition MAX_REFS : Z := 4294967295. (* SIS_OBJECT_MAX_REFS, sis_obj.h:11 *)

Inductive pc :=
| Idle
| IncrAdd             (* the limit was checked, the count is to be raised *)
| IncrStore (r : Z)   (* the count [r] was read, [r + 1] is to be stored *)
| DecrLoad            (* the count is to be read *)
| DecrSwap (r : Z)    (* the count [r] was read, the compare-and-swap or the store comes *)
| DecrFree.           (* the last reference was released, the object is to be freed *)
Record thread := mkth { t_hold : nat; t_pc : pc }.
Record st := mkst { s_refs : Z; s_live : bool; s_frees : nat; s_bad : bool; s_ths : list thread }.

Definition busy (p : pc) : bool := match p with Idle => false | _ => true end.
Definition see (s : st) : view :=
  mkview (map t_hold (s_ths s)) (map (fun t => busy (t_pc t)) (s_ths s)) (s_frees s) (s_bad s).

Fixpoint set_th (l : list thread) (i : nat) (t : thread) : list thread :=
  match l, i with
  | [], _ => []
  | _ :: l', O => t :: l'
  | x :: l', S i' => x :: set_th l' i' t
  end.
(** thread [i] becomes [t], the count becomes [r]; touching freed memory is recorded *)
Definition touch (s : st) (r : Z) (i : nat) (t : thread) : st :=
  mkst r (s_live s) (s_frees s) (s_bad s || negb (s_live s)) (set_th (s_ths s) i t).
Definition free_it (s : st) (i : nat) (t : thread) : st :=
  mkst (s_refs s) false (S (s_frees s)) (s_bad s || negb (s_live s)) (set_th (s_ths s) i t).

(** handing over a reference: thread [j] owns one more *)
Definition give (l : list thread) (i j : nat) : option (list thread) :=
  match nth_error l i with
  | Some (mkth (S h) Idle) =>
    let l1 := set_th l i (mkth h Idle) in
    match nth_error l1 j with
    | Some t => Some (set_th l1 j (mkth (S (t_hold t)) (t_pc t)))
    | None => None
    end
  | _ => None
  end.

(** sis_object_incr, sis_obj.c:16-28 (atomic add), and sis_object_decr, sis_obj.c:30-79 (compare and
    swap); OBJ_ONE_THREAD is not defined (sis_obj.c:4).  [ptr] says that obj->ptr is not NULL. *)
Definition obj_step (ptr : bool) (s : st) (i : nat) (a : act) : option st :=
  match nth_error (s_ths s) i with
  | None => None
  | Some (mkth h p) =>
    match a, p with
    | Use, Idle => match h with O => None | S _ => Some (touch s (s_refs s) i (mkth h Idle)) end
    | Give j, Idle => match give (s_ths s) i j with
                      | Some l => Some (mkst (s_refs s) (s_live s) (s_frees s) (s_bad s) l)
                      | None => None
                      end
    | Take, Idle =>
      match h with
      | O => None
      | S _ => Some (touch s (s_refs s) i (mkth h (if s_refs s =? MAX_REFS then Idle else IncrAdd)))
      end
    | Release, Idle =>
      match h with
      | O => None
      | S h' => Some (touch s (s_refs s) i (if ptr then mkth h DecrLoad else mkth h' Idle))
      end
    | Go, IncrAdd => Some (touch s (to_u 32 (s_refs s + 1)) i (mkth (S h) Idle))
    | Go, DecrLoad => Some (touch s (s_refs s) i (mkth h (DecrSwap (s_refs s))))
    | Go, DecrSwap r =>
      if s_refs s =? r
      then Some (touch s (to_u 32 (r - 1)) i (mkth (pred h) (if r =? 1 then DecrFree else Idle)))
      else Some (touch s (s_refs s) i (mkth h DecrLoad))
    | Go, DecrFree => Some (free_it s i (mkth h Idle))
    | _, _ => None
    end
  end.

(** sis_net_message_incr and sis_net_message_decr, sis_net.msg.c:99-135 ([limit] = true), and
    sis_dynamic_db_incr and sis_dynamic_db_decr, sis_dynamic.c:229-260 ([limit] = false; there the
    count is an int, which makes no difference below 2^31): plain loads and stores *)
Definition plain_step (limit : bool) (s : st) (i : nat) (a : act) : option st :=
  match nth_error (s_ths s) i with
  | None => None
  | Some (mkth h p) =>
    match a, p with
    | Use, Idle => match h with O => None | S _ => Some (touch s (s_refs s) i (mkth h Idle)) end
    | Give j, Idle => match give (s_ths s) i j with
                      | Some l => Some (mkst (s_refs s) (s_live s) (s_frees s) (s_bad s) l)
                      | None => None
                      end
    | Take, Idle =>
      match h with
      | O => None
      | S _ => Some (touch s (s_refs s) i
                 (if limit && (s_refs s =? MAX_REFS) then mkth (S h) Idle else mkth h IncrAdd))
      end
    | Release, Idle =>
      match h with
      | O => None
      | S h' => Some (touch s (s_refs s) i (if s_refs s =? 1 then mkth h' DecrFree else mkth h DecrLoad))
      end
    | Go, IncrAdd => Some (touch s (s_refs s) i (mkth h (IncrStore (s_refs s))))
    | Go, IncrStore r => Some (touch s (to_u 32 (r + 1)) i (mkth (S h) Idle))
    | Go, DecrLoad => Some (touch s (s_refs s) i (mkth h (DecrSwap (s_refs s))))
    | Go, DecrSwap r => Some (touch s (to_u 32 (r - 1)) i (mkth (pred h) Idle))
    | Go, DecrFree => Some (free_it s i (mkth h Idle))
    | _, _ => None
    end
  end.

(** the object just created (sis_obj.c:6-13, sis_net.msg.c:83-89, sis_dynamic.c:217, 225) by the first
    of [n + 1] threads *)
Definition start (n : nat) : st := mkst 1 true 0 false (mkth 1 Idle :: repeat (mkth 0 Idle) n).

(** the states met while running a schedule; it must be a possible one *)
Fixpoint states (step : st -> nat -> act -> option st) (s : st) (l : list (nat * act)) : option (list st) :=
  match l with
  | [] => Some [s]
  | (i, a) :: l' =>
    match step s i a with
    | None => None
    | Some s' => match states step s' l' with Some r => Some (s :: r) | None => None end
    end
  end.
