(** Specification of a list of messages with any number of readers (C35). *)
From Verif Require Import Base.

(** What an observer sees: the messages pushed so far, for every reader how many messages had been
    pushed when opening it returned ([vr_open]) and when it took its place in the list
    ([vr_from]; None: not yet) and what it has received, and whether freed memory was touched. *)
Record rview := mkrv { vr_open : option nat; vr_from : option nat; vr_out : list Z }.
Record bview := mkbv { bv_msgs : list Z; bv_readers : list rview; bv_bad : bool }.

(** [out] = the first messages after the first [n], in order, each once *)
Definition follows (n : nat) (msgs out : list Z) : Prop := exists rest, skipn n msgs = out ++ rest.
(** nothing freed is touched; every reader has the messages from its place on, as far as it has come *)
Definition broadcast_ok (v : bview) : Prop :=
  bv_bad v = false /\
  forall r, In r (bv_readers v) ->
    match vr_from r with Some n => (n <= length (bv_msgs v))%nat /\ follows n (bv_msgs v) (vr_out r) | None => vr_out r = [] end.
(** a reader misses nothing that was pushed after opening it returned *)
Definition on_time (v : bview) : Prop :=
  forall r o n, In r (bv_readers v) -> vr_open r = Some o -> vr_from r = Some n -> (n <= o)%nat.
