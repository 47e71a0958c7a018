(** Queues and slots of the connections: C23 (memory queue), C24 (node queue), C25 (slots). *)
From Verif Require Import Base S_netq M_netq L_netq L_mems.
From Coq Require Import ZifyBool ZifyNat.

(** ** C23 *)

(** C23, partial: as long as nothing is written outside a node and the reader gives a batch back
    only once a pop has found it empty, what has been popped is a prefix of what was pushed:
    complete, in order, nothing twice. *)
Theorem C23_fifo_partial : forall ops q outs,
  Forall (fun m => Z.of_nat (length m) < 2 ^ 31) (pushed ops) ->
  mems_run mems_create ops = Some (q, outs) -> careful false outs ->
  exists rest, pushed ops = popped outs ++ rest.
Proof.
  intros ops q outs Hs H Hc.
  destruct (run_fifo _ _ _ _ _ _ _ create_inv (fun _ => eq_refl) Hs H Hc) as [tr [tw [_ E]]].
  exists (tr ++ tw). exact E.
Qed.
Print Assumptions C23_fifo_partial.

(** C23, partial: nothing is lost.  In any such state some number of pops empties the batch,
    and after that one read makes everything else poppable, in order. *)
Theorem C23_drain_partial : forall ops q outs,
  Forall (fun m => Z.of_nat (length m) < 2 ^ 31) (pushed ops) ->
  mems_run mems_create ops = Some (q, outs) -> careful false outs ->
  exists now later c q',
    pushed ops = popped outs ++ now ++ later /\
    mems_run q (repeat MPop (length now) ++ MRead 0 :: repeat MPop (length later)) =
      Some (q', map (fun m => OPop (Some m)) now ++ ORead c :: map (fun m => OPop (Some m)) later).
Proof.
  intros ops q outs Hs H Hc.
  destruct (run_fifo _ _ _ _ _ _ _ create_inv (fun _ => eq_refl) Hs H Hc) as [tr [tw [I E]]].
  destruct (pop_all _ _ _ I (minv_r_nonempty _ _ _ I)) as [q1 [R1 I1]].
  destruct (drain _ _ I1) as [q2 [c R2]].
  exists tr, tw, c, q2. split; [exact E|].
  exact (mems_run_app _ _ _ _ _ _ _ R1 R2).
Qed.
Print Assumptions C23_drain_partial.

(** C23, partial: messages of at most 16 MB - 3 bytes never leave their node. *)
Theorem C23_fits_partial : forall ops q outs m,
  Forall (fun m => Z.of_nat (length m) <= 16 * 1024 * 1024 - 3) (pushed ops ++ [m]) ->
  mems_run mems_create ops = Some (q, outs) -> careful false outs ->
  mems_step q (MPush m) <> None.
Proof.
  intros ops q outs m Hs H Hc. apply Forall_app in Hs. destruct Hs as [Hs Hm].
  assert (Hs' : Forall small (pushed ops)).
  { eapply Forall_impl; [|exact Hs]. intros x Hx. cbn beta in Hx. unfold small. change (2 ^ 31) with 2147483648. lia. }
  destruct (run_fifo _ _ _ _ _ _ _ create_inv (fun _ => eq_refl) Hs' H Hc) as [tr [tw [I _]]].
  pose proof (push_fits q tr tw m I) as K. inversion Hm as [|? ? Hm' _]; subst.
  cbn [mems_step]. destruct (mems_push q m); [discriminate|]. exfalso. apply K; [|reflexivity].
  unfold MEMSIZE. lia.
Qed.
Print Assumptions C23_fits_partial.

Example C23_example :
  let ops := [MPush [1;2;3]; MPush []; MRead 1; MPop; MPush [7]; MPop; MPop; MFree; MRead 0; MPop; MPop] in
  match mems_run mems_create ops with
  | Some (_, outs) => careful false outs /\ popped outs = pushed ops /\
      outs = [OPush; OPush; ORead 1; OPop (Some [1;2;3]); OPush; OPop (Some []); OPop None; OFree; ORead 1; OPop (Some [7]); OPop None]
  | None => False
  end.
Proof. vm_compute. repeat split. Qed.

(** C23 refuted: a message that does not fit a fresh node is written past its end when the
    current node is in use (_net_mems_reset_node, 166-196, makes a node of the standard size). *)
Theorem C23_large_message_refuted : exists m : list Z, Z.of_nat (length m) < 2 ^ 31 /\
  mems_run mems_create [MPush [1]; MPush m] = None.
Proof.
  exists (repeat 0 (Z.to_nat 16777216)). rewrite repeat_length. split.
  - change (2 ^ 31) with 2147483648. lia.
  - apply push_overflow. rewrite repeat_length. unfold MEMSIZE. lia.
Qed.
Print Assumptions C23_large_message_refuted.

(** C23 refuted: with a message still in the batch, a read reports that nothing is there (the
    count of unread nodes, 378-383, stops at the first one that has been read). *)
Theorem C23_read_reports_nothing_refuted : exists a b q q',
  mems_run mems_create [MPush a; MPush b; MRead 0; MPop; MRead 0] =
    Some (q, [OPush; OPush; ORead 2; OPop (Some a); ORead 0]) /\
  mems_run q [MPop] = Some (q', [OPop (Some b)]).
Proof.
  exists (repeat 0 (Z.to_nat 10000000)), (repeat 1 (Z.to_nat 10000000)).
  apply read_stall; rewrite ?repeat_length; unfold small, MEMSIZE; rewrite ?repeat_length;
    change (2 ^ 31) with 2147483648; lia.
Qed.
Print Assumptions C23_read_reports_nothing_refuted.

(** C23 refuted: giving a batch back drops the messages in it that have not been popped. *)
Theorem C23_free_discards_refuted : exists ops,
  match mems_run mems_create ops with
  | Some (_, outs) => pushed ops = [[1]; [2]; [3]] /\ popped outs = [[1]; [3]]
  | None => False
  end.
Proof.
  exists [MPush [1]; MPush [2]; MRead 0; MPop; MFree; MPush [3]; MRead 0; MPop]. vm_compute. split; reflexivity.
Qed.
Print Assumptions C23_free_discards_refuted.

(** ** C24 *)

(** C24: what was pushed is what was handed out and freed, then the batch in the reader's hands,
    then what waits; the count and size are those of the last two; a read keeps an unfreed batch,
    takes everything for limit 0 and the first [n] for limit [n]. *)
Theorem C24_node_queue : forall ops q done, nodes_run nodes_create ops = (q, done) ->
  qpushed ops = done ++ n_r q ++ n_w q /\
  nodes_count q = Z.of_nat (length (n_r q ++ n_w q)) /\
  n_size q = total (n_r q ++ n_w q) /\
  forall n, 0 <= n ->
    n_r (fst (nodes_read q n)) ++ n_w (fst (nodes_read q n)) = n_r q ++ n_w q /\
    snd (nodes_read q n) = Z.of_nat (length (n_r (fst (nodes_read q n)))) /\
    n_r (fst (nodes_read q n)) =
      match n_r q with
      | [] => if n =? 0 then n_w q else firstn (Z.to_nat n) (n_w q)
      | batch => batch
      end.
Proof. exact c24_main. Qed.
Print Assumptions C24_node_queue.

Example C24_example :
  let ops := [QPush (1%nat, 10); QPush (2%nat, 20); QRead 1; QPush (3%nat, 5); QRead 0; QFree; QRead 0] in
  match nodes_run nodes_create ops with
  | (q, done) => done = [(1%nat, 10)] /\ n_r q = [(2%nat, 20); (3%nat, 5)] /\ n_w q = [] /\ n_size q = 25
  end.
Proof. vm_compute. repeat split. Qed.

(** ** C25 *)

(** C25, partial: in every run in which no memory is accessed outside the arrays, every answer is
    one the specification accepts: a new slot is not that of a live connection, a lookup finds
    exactly the live connection of the slot. *)
Theorem C25_slots_partial : forall ops q outs, nl_run nl_create ops = Some (q, outs) ->
  exists f, accepts (fun _ => None) ops outs f.
Proof.
  intros ops q outs H. destruct (nl_run_inv _ _ _ _ nl_create_inv H) as [f [A _]].
  destruct (accepts_ext _ _ _ _ A _ nl_create_live) as [g [B _]]. exists g. exact B.
Qed.
Print Assumptions C25_slots_partial.

(** C25, partial: with at most 1024 registrations no memory outside the arrays is accessed. *)
Theorem C25_safe_partial : forall ops, Z.of_nat (registrations ops) <= 1024 -> nl_run nl_create ops <> None.
Proof.
  intros ops H. apply nl_run_safe; [exact nl_create_inv|]. rewrite nl_create_fresh. lia.
Qed.
Print Assumptions C25_safe_partial.

Example C25_example :
  let ops := [LNew 0 71; LNew 0 72; LStop 5 0; LGet 0; LNew 10 73; LGet 1; LNew 100 74; LGet 0; LStop 100 9] in
  (registrations ops <= 1024)%nat /\
  match nl_run nl_create ops with
  | Some (_, outs) => outs = [RNew 0; RNew 1; RStop 0; RGet 0; RNew 2; RGet 72; RNew 0; RGet 74; RStop (-1)]
  | None => False
  end.
Proof. split; [apply Nat.leb_le; vm_compute; reflexivity|vm_compute; reflexivity]. Qed.

(** C25 refuted: the 1025th simultaneous connection is stored outside the arrays, whose content
    is lost as well (_net_list_set_grow, 719-737, copies from the new arrays to the old ones and
    never installs them). *)
Theorem C25_growth_refuted : exists ops, registrations ops = Z.to_nat 1025 /\ nl_run nl_create ops = None.
Proof. exists (repeat (LNew 0 1) (Z.to_nat 1025)). split; vm_compute; reflexivity. Qed.
Print Assumptions C25_growth_refuted.
