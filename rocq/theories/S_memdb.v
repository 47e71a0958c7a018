(** Specification of the store of shared texts: what a name holds after a history, which
    subscriptions are in force and what each request is to be answered.  Mentions nothing of the
    program. *)
From Coq Require Import ZArith List Bool Lia.
From Verif Require Import Base S_server S_sub.
Import ListNotations.
Open Scope Z_scope.

(** requests; the first number is the client *)
Inductive mreq :=
| MInit                                        (* the service begins anew *)
| MGet (c : Z) (n : option str)
| MSet (c : Z) (n v : option str)
| MSub (c : Z) (head : bool) (n : str)
| MPub (c : Z) (n : str)
| MUnsub (c : Z)
| MGone (c : Z)                                (* the connection of the client is closed *)
| MReset (c : Z).                              (* the client calls what is meant for the process itself *)

Inductive mans :=
| ADone
| ANil
| AText (v : option str)
| AOk
| AError
| AInt (n : Z)
| ASent (out : list Z).                        (* the clients a published message was sent to *)

(** what a name holds: the content set last, names ignoring case *)
Definition store_step (f : str -> option str) (r : mreq) : str -> option str :=
  match r with
  | MInit => fun _ => None
  | MSet _ (Some s) (Some v) => fun n => if same n s then Some v else f n
  | _ => f
  end.
Definition stored (rs : list mreq) : str -> option str := fold_left store_step rs (fun _ => None).

(** the part of a request on subscriptions *)
Definition sub_part (r : mreq) : option sreq :=
  match r with
  | MSub c h n => Some (RSub c h n)
  | MUnsub c => Some (RUnsub c)
  | MGone c => Some (RGone c)
  | _ => None
  end.
Definition sub_parts (rs : list mreq) : list sreq :=
  flat_map (fun r => match sub_part r with Some q => [q] | None => [] end) rs.
(** the subscriptions in force *)
Definition force_step (A : list asub) (r : mreq) : list asub :=
  match r with
  | MInit => []
  | _ => match sub_part r with Some q => in_force_step A q | None => A end
  end.
Definition force (rs : list mreq) : list asub := fold_left force_step rs [].

(** the answer [a] to the request [r] after the requests [pre] *)
Definition right (pre : list mreq) (r : mreq) (a : mans) : Prop :=
  match r with
  | MInit => a = ADone
  | MGet _ None => a = ANil
  | MGet _ (Some n) => a = match stored pre n with Some v => AText (Some v) | None => ANil end
  | MSet _ _ None => a = AError
  | MSet _ _ (Some _) => a = AOk
  | MSub c h n => a = AInt (answer (force pre) (RSub c h n))
  | MUnsub c => a = AInt (answer (force pre) (RUnsub c))
  | MGone _ => a = ADone
  | MReset _ => a = AError
  | MPub _ n => exists out, a = ASent out /\ forall c, count_occ Z.eq_dec out c = wanted (force pre) c n
  end.

(** the histories covered: contents are texts under a name, patterns are clear, published names are
    short, clients have a number, and no client calls for a new beginning *)
Definition plain_text (v : str) : Prop := v <> [] /\ ~ In 0 v.
Definition good_reqs (rs : list mreq) : Prop :=
  (forall c n v, In (MSet c n (Some v)) rs -> n <> None /\ plain_text v) /\
  clear_requests (sub_parts rs) /\ ~ In (MUnsub (-1)) rs /\ (forall c, ~ In (MReset c) rs) /\
  (forall c n, In (MPub c n) rs -> short_name n).
