(** Specification of the connection queues and the connection slots (C23-C25). *)
From Verif Require Import Base.

(** C23: operations on the memory queue of a connection *)
Inductive mop :=
| MPush (m : list Z)
| MRead (n : Z)
| MPop
| MFree.
(** what is seen of an operation: the message popped, the number returned by a read *)
Inductive mout :=
| OPush
| ORead (n : Z)
| OPop (m : option (list Z))
| OFree.

Fixpoint pushed (l : list mop) : list (list Z) :=
  match l with [] => [] | MPush m :: l' => m :: pushed l' | _ :: l' => pushed l' end.
Fixpoint popped (l : list mout) : list (list Z) :=
  match l with [] => [] | OPop (Some m) :: l' => m :: popped l' | _ :: l' => popped l' end.

(** C24: operations on the node queue; an object is its identity and its size *)
Inductive qop :=
| QPush (o : nat * Z)
| QRead (n : Z)
| QFree.
Fixpoint qpushed (l : list qop) : list (nat * Z) :=
  match l with [] => [] | QPush o :: l' => o :: qpushed l' | _ :: l' => qpushed l' end.
Definition total (l : list (nat * Z)) : Z := fold_right (fun o s => snd o + s) 0 l.

(** C25: registering, stopping and looking up connections; [now] is the clock *)
Inductive lop :=
| LNew (now : Z) (p : Z)
| LStop (now : Z) (i : Z)
| LGet (i : Z).
Inductive lout :=
| RNew (i : Z)
| RStop (r : Z)
| RGet (p : Z).

(** which connections are live, by slot *)
Definition livemap := Z -> option Z.
Definition set_live (f : livemap) (i : Z) (v : option Z) : livemap := fun j => if j =? i then v else f j.

(** what an implementation may answer *)
Inductive accepts : livemap -> list lop -> list lout -> livemap -> Prop :=
| acc_nil : forall f, accepts f [] [] f
| acc_new : forall f now p i ops outs f',
    0 <= i -> f i = None -> accepts (set_live f i (Some p)) ops outs f' ->
    accepts f (LNew now p :: ops) (RNew i :: outs) f'
| acc_stop : forall f now i p ops outs f',
    f i = Some p -> accepts (set_live f i None) ops outs f' ->
    accepts f (LStop now i :: ops) (RStop i :: outs) f'
| acc_stop_no : forall f now i ops outs f',
    f i = None -> accepts f ops outs f' ->
    accepts f (LStop now i :: ops) (RStop (-1) :: outs) f'
| acc_get : forall f i ops outs f',
    accepts f ops outs f' ->
    accepts f (LGet i :: ops) (RGet (match f i with Some p => p | None => 0 end) :: outs) f'.

Fixpoint registrations (l : list lop) : nat :=
  match l with [] => 0 | LNew _ _ :: l' => S (registrations l') | _ :: l' => registrations l' end.

(** the reader gives its batch back only after a pop has found it empty *)
Fixpoint careful (drained : bool) (l : list mout) : Prop :=
  match l with
  | [] => True
  | OPush :: l' => careful drained l'
  | ORead _ :: l' => careful false l'
  | OPop None :: l' => careful true l'
  | OPop (Some _) :: l' => careful false l'
  | OFree :: l' => drained = true /\ careful true l'
  end.
