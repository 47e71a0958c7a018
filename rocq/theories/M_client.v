(** Model of the client worker: workers/sisdb_client/sisdb_client.c 36-104, 114-262, 290-329, 376-385, 402-546, with
    src/core/sis_map.lock.c.
    Any number of calls run at the same time with the thread of the network, in any order of their steps; a thread that makes
    several calls one after another is one of the schedules. The server is the environment: at any time it may answer a request
    that has been sent on the present connection, with any content, any tag, and as often as it likes (subscriptions).

    Simplifications: the map of requests holds the numbers instead of their decimal texts (sis_llutoa and sis_sdsnewlong);
    requests are not lost and not reordered other than by the server; a callback of a call that does not wait does nothing but
    being called; unsub, which nothing in the repository calls, and the end of the program are left out. A caller that waits is
    taken to give its message up as soon as it has its answer. *)
From Verif Require Import Base S_client M_sub.
Open Scope Z_scope.

Definition SUBS : list Z := [115; 117; 98; 44; 122; 115; 117; 98; 44; 104; 115; 117; 98].
(** sisdb_client_ask_create, sisdb_client.c:49-58: is it a subscription; None: a buffer of 128 bytes is overrun *)
Definition is_sub (cmd : list Z) : option bool :=
  match divide 128 cmd [] with
  | None => None
  | Some (_, _, c) => Some (subcmp true c (Some SUBS))
  end.

(** where a call is: not begun; at the reading and at the writing of ask_sno++ (sisdb_client.c:299); before it puts itself into
    the map (302); before sw_tag = 0 (421, 465); before it sends (423, 467); waiting (425-428, 476-479); returned *)
Inductive phase := P0 | PRead | PInc (r : Z) | PSet | PClear | PSend | PWait | PDone (o : outcome).
(** the thread of the network: idle; has looked an answer up (140); has called the callback (184-187) *)
Inductive nphase := NIdle | NGot (a : answer) (i : nat) | NDel (i : nat).
(** sisdb_client.h:26-30 *)
Inductive cstatus := SInit | SAuth | SWork.
(** ask_sno, the phases, the numbers of the requests (ask->sno), the map asks, the requests that were freed, the messages of the
    waiting calls (None: sw_tag is 0), status, is there a connection, the thread of the network, the requests sent on this
    connection, the calls of the callbacks with their answers, tags and contents, has memory been used after it was freed or a
    buffer overrun *)
Record client := mkc { sno : Z; ph : nat -> phase; num : nat -> Z; asks : list (Z * nat); freed : nat -> bool;
  got : nat -> option (Z * list Z); status : cstatus; conn : bool; net : nphase; sent : list (Z * nat);
  told : list (nat * answer * (Z * list Z)); bad : bool }.
Definition upd {A} (f : nat -> A) (i : nat) (v : A) : nat -> A := fun j => if Nat.eqb j i then v else f j.
Definition find_ask (n : Z) (l : list (Z * nat)) : option nat :=
  match find (fun x => fst x =? n) l with Some x => Some (snd x) | None => None end.
Definition drop_ask (n : Z) (l : list (Z * nat)) : list (Z * nat) := filter (fun x => negb (fst x =? n)) l.
(** sis_safe_map_set and sis_safe_map_del free the request that had the number, sis_map.lock.c:58-71 *)
Definition free_ask (n : Z) (s : client) : nat -> bool :=
  match find_ask n (asks s) with Some j => upd (freed s) j true | None => freed s end.

(** what _cb_recv gives to the callback, sisdb_client.c:146-182 *)
Definition reply (t : Z) (info : list Z) : Z * list Z :=
  if (t =? 103) || (t =? 104) || (t =? 105) then (t, info)
  else if t =? 0 then (0, info)
  else if t =? - 3 then (- 3, [])
  else (- 2, info).

Section Client.
Variable req : nat -> call.
(** context->auth, 91-96 *)
Variable auth : bool.
Definition sub (i : nat) : bool := match is_sub (q_cmd (req i)) with Some b => b | None => false end.

Definition set_ph (s : client) (i : nat) (p : phase) : client :=
  mkc (sno s) (upd (ph s) i p) (num s) (asks s) (freed s) (got s) (status s) (conn s) (net s) (sent s) (told s) (bad s).
Definition set_bad (s : client) : client :=
  mkc (sno s) (ph s) (num s) (asks s) (freed s) (got s) (status s) (conn s) (net s) (sent s) (told s) true.
Definition set_net (s : client) (n : nphase) : client :=
  mkc (sno s) (ph s) (num s) (asks s) (freed s) (got s) (status s) (conn s) n (sent s) (told s) (bad s).

(** one step of a call: cmd_sisdb_client_chars_wait and the three others, sisdb_client.c:402-546, with sisdb_client_ask_cmd,
    290-304, and sisdb_client_send_ask, 114-133 (sis_net_class_send without a connection does nothing, sis_net.c:898-905) *)
Definition go (i : nat) (s : client) : option client :=
  match ph s i with
  | P0 =>
      match status s with
      | SWork => match is_sub (q_cmd (req i)) with Some _ => Some (set_ph s i PRead) | None => Some (set_bad s) end
      | _ => Some (set_ph s i (PDone Refused))
      end
  | PRead => Some (set_ph s i (PInc (sno s)))
  | PInc r => Some (mkc (to_u 32 (r + 1)) (upd (ph s) i PSet) (upd (num s) i (r mod 16777215)) (asks s) (freed s) (got s) (status s)
                        (conn s) (net s) (sent s) (told s) (bad s))
  | PSet => Some (mkc (sno s) (upd (ph s) i (if q_wait (req i) then PClear else PSend)) (num s) ((num s i, i) :: drop_ask (num s i) (asks s))
                      (free_ask (num s i) s) (got s) (status s) (conn s) (net s) (sent s) (told s) (bad s))
  | PClear => Some (mkc (sno s) (upd (ph s) i PSend) (num s) (asks s) (freed s) (upd (got s) i None) (status s) (conn s) (net s) (sent s)
                        (told s) (bad s))
  | PSend =>
      if freed s i then Some (set_bad s)
      else Some (mkc (sno s) (upd (ph s) i (if q_wait (req i) then PWait else PDone Success)) (num s) (asks s) (freed s) (got s) (status s)
                     (conn s) (net s) (if conn s then (num s i, i) :: sent s else sent s) (told s) (bad s))
  | PWait => match got s i with Some (t, _) => Some (set_ph s i (PDone (if t <? 0 then Failure else Success))) | None => None end
  | PDone _ => None
  end.
(** after the login all subscriptions are sent again, 193-211 *)
Definition resend (s : client) : client :=
  mkc (sno s) (ph s) (num s) (asks s) (freed s) (got s) SWork (conn s) (net s) (filter (fun x => sub (snd x)) (asks s) ++ sent s) (told s) (bad s).
(** an answer comes in, _cb_recv 135-144, 190-217 *)
Definition recv (a : answer) (s : client) : client :=
  match status s with
  | SWork => match find_ask (a_name a) (asks s), a_tag a with Some i, Some _ => set_net s (NGot a i) | _, _ => s end
  | SAuth => match a_tag a with Some 0 => resend s | _ => s end
  | SInit => s
  end.
(** the thread of the network goes on: the callback, which for a waiting call writes into its message (cb_reply, 376-385), and
    then sisdb_client_ask_del, 306-322, of what is no subscription *)
Definition net_go (s : client) : option client :=
  match net s with
  | NIdle => None
  | NGot a i =>
      let d := reply (match a_tag a with Some t => t | None => 0 end) (a_info a) in
      if freed s i then Some (set_bad s)
      else if q_wait (req i) then
        match ph s i with
        | PDone _ => Some (set_bad s)
        | _ => Some (mkc (sno s) (ph s) (num s) (asks s) (freed s) (upd (got s) i (Some d)) (status s) (conn s) (NDel i) (sent s)
                         ((i, a, d) :: told s) (bad s))
        end
      else Some (mkc (sno s) (ph s) (num s) (asks s) (freed s) (got s) (status s) (conn s) (NDel i) (sent s) ((i, a, d) :: told s) (bad s))
  | NDel i =>
      if freed s i then Some (set_bad s)
      else if sub i then Some (set_net s NIdle)
      else Some (mkc (sno s) (ph s) (num s) (drop_ask (num s i) (asks s)) (free_ask (num s i) s) (got s) (status s) (conn s) NIdle (sent s)
                     (told s) (bad s))
  end.
(** what may happen next: a step of a call, an answer, a step of the network, a connection (_cb_connected, 219-251), the answer to
    the login, the end of the connection (_cb_disconnect, 252-262) *)
Inductive event := Go (i : nat) | Recv (a : answer) | Net | Connect | Login | Disconnect.
Definition happens (e : event) (s : client) : option client :=
  match e with
  | Go i => go i s
  | Net => net_go s
  | Recv a => match net s with NIdle => if existsb (fun x => (fst x =? a_name a) && Nat.eqb (snd x) (a_for a)) (sent s) then Some (recv a s) else None | _ => None end
  | Connect =>
      if conn s then None
      else Some (mkc (sno s) (ph s) (num s) (asks s) (freed s) (got s) (if auth then SAuth else SWork) true (net s) [] (told s) (bad s))
  | Login => match net s, status s with NIdle, SAuth => Some (resend s) | _, _ => None end
  | Disconnect =>
      match net s with
      | NIdle => if conn s then Some (mkc (sno s) (ph s) (num s) (asks s) (freed s) (got s) SInit false NIdle [] (told s) (bad s)) else None
      | _ => None
      end
  end.
(** sisdb_client_init, 73-105; the messages of the callers may hold an old answer *)
Definition start (old : nat -> option (Z * list Z)) : client :=
  mkc 0 (fun _ => P0) (fun _ => 0) [] (fun _ => false) old SInit false NIdle [] [] false.
Fixpoint happen (es : list event) (s : client) : option client :=
  match es with [] => Some s | e :: r => match happens e s with Some s' => happen r s' | None => None end end.
End Client.
