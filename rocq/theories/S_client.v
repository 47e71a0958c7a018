(** What a client of the database should do: every call that asks the server gets the answer to its own request. Nothing here
    refers to the program. *)
From Verif Require Import Base.
Open Scope Z_scope.

(** a request: does the caller wait for the answer; the command, with or without the name of a service and a point before it *)
Record call := mkcall { q_wait : bool; q_cmd : list Z }.
(** an answer: the number of the request it names, its tag if it has one, its content; [a_for]: the call whose request the server
    answers with it *)
Record answer := mka { a_name : Z; a_tag : option Z; a_info : list Z; a_for : nat }.
(** what a caller is told: the request failed, succeeded, or there is no connection *)
Inductive outcome := Success | Failure | Refused.
(** the meaning of the tags, src/core/net/sis_net.msg.h:23-44: the negative ones are failures, the others are not *)
Definition means (t : Z) : outcome := if t <? 0 then Failure else Success.
(** the tags of a completed request, of the start, the end of the cached data and the end of a subscription *)
Definition plain_tag (t : Z) : Prop := t = 0 \/ t = 103 \/ t = 104 \/ t = 105.
(** the commands that subscribe: the part behind the point (or all, without a point) is one of sub, zsub, hsub *)
Definition lowcase (c : Z) : Z := if (65 <=? c) && (c <=? 90) then c + 32 else c.
Definition sub_word (w : list Z) : Prop :=
  let l := map lowcase w in l = [115; 117; 98] \/ l = [122; 115; 117; 98] \/ l = [104; 115; 117; 98].
