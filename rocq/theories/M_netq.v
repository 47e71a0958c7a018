(** Model of src/core/net/sis_net.node.c: the memory queue (s_sis_net_mems), the node queue
    (s_sis_net_nodes) and the slot list (s_sis_net_list).

    Simplifications: chains of nodes are lists; counters that always equal the length of a
    chain (wnums, rnums) are that length and do not wrap; every operation under the lock is
    atomic and the try-lock of a read succeeds; None = memory accessed outside a buffer or
    through NULL.  push_sign, push_kv and cat are not modelled. *)
From Verif Require Import Base S_netq.

(** ** memory queue *)

(** SIS_NET_MEMSIZE, sis_net.node.h:16 *)
Definition MEMSIZE : Z := 16 * 1024 * 1024.

(** s_sis_net_mem_node, sis_net.node.h:22-29; size is the length of the bytes *)
Record mnode := mkmn { mn_max : Z; mn_bytes : list Z; mn_rpos : nat }.
Definition mn_size (n : mnode) : Z := Z.of_nat (length (mn_bytes n)).

(** sis_net_mem_node_create, sis_net.node.c:11-18 *)
Definition mn_create (size : Z) : mnode := mkmn (size + 1) [] 0.
(** sis_net_mem_node_clear, 25-30 *)
Definition mn_clear (n : mnode) : mnode := mkmn (mn_max n) [] 0.
(** sis_net_mem_node_renew, 31-44 *)
Definition mn_renew (n : mnode) (size : Z) : mnode :=
  if mn_max n <? size then mkmn (size + 1) (mn_bytes n) (mn_rpos n) else n.

(** s_sis_net_mems, sis_net.node.h:31-47: the write chain up to wnode, wnode and what follows,
    the read chain *)
Record mems := mkmems {
  q_before : list mnode;   (* whead .. before wnode *)
  q_wnode : mnode;
  q_after : list mnode;    (* behind wnode *)
  q_wuses : Z;
  q_r : list mnode;
  q_rsize : Z;
  q_nouses : Z }.

(** sis_net_mems_create, 49-60 *)
Definition mems_create : mems := mkmems [] (mn_create MEMSIZE) [] 0 [] 0 64.

(** _net_mems_reset_node, 166-196: the nodes passed over, the node to write, the nodes behind *)
Fixpoint reset_scan (node : mnode) (after : list mnode) (isize : Z) : list mnode * mnode * list mnode :=
  if mn_max node <? isize + mn_size node then
    if mn_size node =? 0 then ([], mn_renew node isize, after)
    else match after with
         | [] => ([node], mn_create MEMSIZE, [])
         | n' :: after' => let '(p, n, a) := reset_scan n' after' isize in (node :: p, n, a)
         end
  else ([], node, after).

(** sis_net_mems_push, 204-223: the length as int, then the data *)
Definition mems_push (q : mems) (m : list Z) : option mems :=
  let isize := Z.of_nat (length m) in
  let '(p, n, a) := reset_scan (q_wnode q) (q_after q) (isize + 4) in
  let bytes := mn_bytes n ++ le_bytes 4 (to_u 32 isize) ++ m in
  if Z.of_nat (length bytes) <=? mn_max n then
    Some (mkmems (q_before q ++ p) (mkmn (mn_max n) bytes (mn_rpos n)) a
                 (if mn_size n =? 0 then q_wuses q + 1 else q_wuses q) (q_r q) (q_rsize q) (q_nouses q))
  else None.

(** _net_mems_move_read, 107-156 *)
Definition mems_move_read (q : mems) : mems :=
  let r := map mn_clear (q_r q) in
  let wnums := Z.of_nat (length (q_before q) + 1 + length (q_after q)) in
  let nouse := Z.of_nat (length r) + (wnums - q_wuses q) in
  let back := if q_nouses q <? nouse then firstn (Z.to_nat (nouse - q_nouses q)) r else r in
  mkmems (q_before q) (q_wnode q) (q_after q ++ back) (q_wuses q) [] 0 (q_nouses q).

(** the loop of sis_net_mems_read, 399-434 *)
Fixpoint read_loop (fuel : nat) (q : mems) (readnums : Z) : mems :=
  match fuel with
  | O => q
  | S fuel' =>
    let next := match q_before q with n :: _ => n | [] => q_wnode q end in
    if (0 <? mn_size next) && (0 <? q_wuses q) && (Z.of_nat (length (q_r q)) <? readnums) then
      let r := q_r q ++ [next] in
      let rs := q_rsize q + mn_size next in
      match q_before q with
      | _ :: b => read_loop fuel' (mkmems b (q_wnode q) (q_after q) (q_wuses q - 1) r rs (q_nouses q)) readnums
      | [] =>
        match q_after q with
        | n :: a => read_loop fuel' (mkmems [] n a (q_wuses q - 1) r rs (q_nouses q)) readnums
        | [] => mkmems [] (mn_create MEMSIZE) [] (q_wuses q - 1) r rs (q_nouses q)
        end
      end
    else q
  end.

(** 378-383 *)
Fixpoint unread_nodes (l : list mnode) : Z :=
  match l with
  | [] => 0
  | n :: l' => if Z.of_nat (mn_rpos n) <? mn_size n then 1 + unread_nodes l' else 0
  end.

(** sis_net_mems_read, 373-441 *)
Definition mems_read (q : mems) (readnums : Z) : mems * Z :=
  if 0 <? q_rsize q then (q, unread_nodes (q_r q))
  else
    let q1 := mems_move_read q in
    let rn := if readnums =? 0 then q_wuses q1 else readnums in
    let q2 := read_loop (length (q_before q1) + 1 + length (q_after q1)) q1 rn in
    (q2, Z.of_nat (length (q_r q2))).

(** 357-368: the message at rpos *)
Definition take_msg (n : mnode) (q : mems) (rest : list mnode) : option (mems * option (list Z)) :=
  let sz := to_s 32 (le_val (firstn 4 (skipn (mn_rpos n) (mn_bytes n)))) in
  if (sz <? 0) || (mn_size n <? Z.of_nat (mn_rpos n) + 4 + sz) then None
  else
    let m := firstn (Z.to_nat sz) (skipn (mn_rpos n + 4) (mn_bytes n)) in
    Some (mkmems (q_before q) (q_wnode q) (q_after q) (q_wuses q)
                 (mkmn (mn_max n) (mn_bytes n) (mn_rpos n + 4 + Z.to_nat sz) :: rest)
                 (q_rsize q - (sz + 4)) (q_nouses q), Some m).

(** sis_net_mems_pop, 335-371 *)
Definition mems_pop (q : mems) : option (mems * option (list Z)) :=
  match q_r q with
  | [] => None
  | n :: rest =>
    if mn_size n <=? Z.of_nat (mn_rpos n) then
      match rest with
      | [] => Some (mkmems (q_before q) (q_wnode q) (q_after q) (q_wuses q) [mn_clear n] (q_rsize q) (q_nouses q), None)
      | n2 :: rest2 =>
        let r := rest2 ++ [mn_clear n] in
        if Z.of_nat (mn_rpos n2) <? mn_size n2 then take_msg n2 q r
        else Some (mkmems (q_before q) (q_wnode q) (q_after q) (q_wuses q) (n2 :: r) (q_rsize q) (q_nouses q), None)
      end
    else take_msg n q rest
  end.

Definition mems_step (q : mems) (o : mop) : option (mems * mout) :=
  match o with
  | MPush m => match mems_push q m with Some q' => Some (q', OPush) | None => None end
  | MRead n => let '(q', c) := mems_read q n in Some (q', ORead c)
  | MPop => match mems_pop q with Some (q', m) => Some (q', OPop m) | None => None end
  | MFree => Some (mems_move_read q, OFree)          (* sis_net_mems_free_read, 442-449 *)
  end.
Fixpoint mems_run (q : mems) (l : list mop) : option (mems * list mout) :=
  match l with
  | [] => Some (q, [])
  | o :: l' =>
    match mems_step q o with
    | None => None
    | Some (q', x) => match mems_run q' l' with Some (q2, xs) => Some (q2, x :: xs) | None => None end
    end
  end.

(** ** node queue: s_sis_net_nodes *)
Record nodes := mknodes { n_w : list (nat * Z); n_r : list (nat * Z); n_rnums : Z; n_size : Z }.
(** sis_net_nodes_create, 512-517 *)
Definition nodes_create : nodes := mknodes [] [] 0 0.
(** sis_net_nodes_push, 571-594 *)
Definition nodes_push (q : nodes) (o : nat * Z) : nodes :=
  mknodes (n_w q ++ [o]) (n_r q) (n_rnums q) (n_size q + snd o).
(** the loop of sis_net_nodes_read, 615-645 *)
Fixpoint nodes_take (w r : list (nat * Z)) (rnums readnums : Z) : list (nat * Z) * list (nat * Z) * Z :=
  match w with
  | [] => ([], r, rnums)
  | o :: w' => if readnums <=? rnums + 1 then (w', r ++ [o], rnums + 1) else nodes_take w' (r ++ [o]) (rnums + 1) readnums
  end.
(** sis_net_nodes_read, 596-652 *)
Definition nodes_read (q : nodes) (readnums : Z) : nodes * Z :=
  if 0 <? n_rnums q then (q, n_rnums q)
  else if readnums =? 0 then
    (mknodes [] (n_w q) (Z.of_nat (length (n_w q))) (n_size q), Z.of_nat (length (n_w q)))
  else let '(w, r, c) := nodes_take (n_w q) (n_r q) (n_rnums q) readnums in (mknodes w r c (n_size q), c).
(** sis_net_nodes_free_read, 653-660, 518-538 *)
Definition nodes_free (q : nodes) : nodes * Z :=
  (mknodes (n_w q) [] 0 (n_size q - fold_right (fun o s => snd o + s) 0 (n_r q)), Z.of_nat (length (n_r q))).
(** sis_net_nodes_count, 661-667 *)
Definition nodes_count (q : nodes) : Z := n_rnums q + Z.of_nat (length (n_w q)).

(** a run: the objects freed after having been handed out *)
Fixpoint nodes_run (q : nodes) (l : list qop) : nodes * list (nat * Z) :=
  match l with
  | [] => (q, [])
  | QPush o :: l' => nodes_run (nodes_push q o) l'
  | QRead n :: l' => nodes_run (fst (nodes_read q n)) l'
  | QFree :: l' => let '(q', done) := nodes_run (fst (nodes_free q)) l' in (q', n_r q ++ done)
  end.

(** ** slot list: s_sis_net_list, sis_net.node.h:109-121; a slot is used, stop_sec, buffer; the
    arrays are as long as the list, max_count is separate *)
Definition NOUSE : Z := 0.
Definition USEED : Z := 1.
Definition CLOSED : Z := 2.
Record slot := mkslot { sl_used : Z; sl_stop : Z; sl_ptr : Z }.
Record nlist := mknl { nl_max : Z; nl_slots : list slot; nl_wait : Z }.

(** sis_net_list_create, 681-694 *)
Definition nl_create : nlist := mknl 1024 (repeat (mkslot NOUSE 0 0) 1024) 60.

Fixpoint upd {A} (l : list A) (i : nat) (v : A) : list A :=
  match l, i with [], _ => [] | _ :: l', O => v :: l' | x :: l', S i' => x :: upd l' i' v end.

(** the search of sis_net_list_new, 763-779, over the slots that exist *)
Fixpoint nl_scan (l : list slot) (i : nat) (now wait : Z) : option nat :=
  match l with
  | [] => None
  | s :: l' =>
    if sl_used s =? NOUSE then Some i
    else if (0 <? wait) && (sl_used s =? CLOSED) && (wait <? now - sl_stop s) then Some i
    else nl_scan l' (S i) now wait
  end.

(** _net_list_set_grow, 719-737: the copies go from the new arrays to the old ones *)
Definition nl_grow (q : nlist) (count : Z) : nlist :=
  if nl_max q <? count
  then mknl ((count / 1024 + 1) * 1024) (map (fun _ => mkslot NOUSE 0 0) (nl_slots q)) (nl_wait q)
  else q.

(** ptr[index] = in; used[index] = USEED, 785-787; None = outside the arrays *)
Definition nl_put (q : nlist) (i : nat) (stop p : Z) : option nlist :=
  if (i <? length (nl_slots q))%nat
  then Some (mknl (nl_max q) (upd (nl_slots q) i (mkslot USEED stop p)) (nl_wait q)) else None.

(** sis_net_list_new, 758-791; _net_list_free of a slot taken again sets stop_sec to 0, 747.
    None also if max_count exceeds the arrays when the search runs past them. *)
Definition nl_new (q : nlist) (now p : Z) : option (nlist * Z) :=
  match nl_scan (nl_slots q) 0 now (nl_wait q) with
  | Some i =>
    let s := nth i (nl_slots q) (mkslot 0 0 0) in
    let stop := if sl_used s =? NOUSE then sl_stop s else 0 in
    match nl_put q i stop p with Some q' => Some (q', Z.of_nat i) | None => None end
  | None =>
    if nl_max q =? Z.of_nat (length (nl_slots q)) then
      let q1 := nl_grow q (nl_max q + 1) in
      match nl_put q1 (Z.to_nat (nl_max q)) 0 p with Some q' => Some (q', nl_max q) | None => None end
    else None
  end.

(** sis_net_list_get, 792-804: 0 = NULL *)
Definition nl_get (q : nlist) (i : Z) : option Z :=
  if (i <? 0) || (nl_max q <=? i) then Some 0
  else match nth_error (nl_slots q) (Z.to_nat i) with
       | None => None
       | Some s => if sl_used s =? USEED then Some (sl_ptr s) else Some 0
       end.

(** sis_net_list_stop, 846-876 *)
Definition nl_stop (q : nlist) (now i : Z) : option (nlist * Z) :=
  if (i <? 0) || (nl_max q <=? i) then Some (q, -1)
  else match nth_error (nl_slots q) (Z.to_nat i) with
       | None => None
       | Some s =>
         if sl_used s =? USEED then
           let s' := if 0 <? nl_wait q then mkslot CLOSED now (sl_ptr s) else mkslot NOUSE 0 0 in
           Some (mknl (nl_max q) (upd (nl_slots q) (Z.to_nat i) s') (nl_wait q), i)
         else Some (q, -1)
       end.

Definition nl_step (q : nlist) (o : lop) : option (nlist * lout) :=
  match o with
  | LNew now p => match nl_new q now p with Some (q', i) => Some (q', RNew i) | None => None end
  | LStop now i => match nl_stop q now i with Some (q', r) => Some (q', RStop r) | None => None end
  | LGet i => match nl_get q i with Some p => Some (q, RGet p) | None => None end
  end.
Fixpoint nl_run (q : nlist) (l : list lop) : option (nlist * list lout) :=
  match l with
  | [] => Some (q, [])
  | o :: l' =>
    match nl_step q o with
    | None => None
    | Some (q', x) => match nl_run q' l' with Some (q2, xs) => Some (q2, x :: xs) | None => None end
    end
  end.
