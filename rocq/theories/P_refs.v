(** Properties of reference counts: C40. *)
From Verif Require Import Base S_refs M_refs L_refs.
From Coq Require Import ZifyBool ZifyNat.

Lemma start_core : forall k n, core k (start n).
Proof.
  intros k n. unfold core, start, sumh, nf; cbn [s_bad s_live s_frees s_refs s_ths map]. rewrite !sum_cons.
  assert (list_sum (map t_hold (repeat (mkth 0 Idle) n)) = 0%nat /\ list_sum (map isf (repeat (mkth 0 Idle) n)) = 0%nat) as [-> ->].
  { induction n; [split; reflexivity|]. exact IHn. }
  cbn. repeat split; lia.
Qed.
Lemma start_ok : forall ex dl n, okf ex dl (start n).
Proof. intros. unfold okf, start; cbn [s_ths]. constructor; [exact I|]. apply Forall_forall. intros x X. apply repeat_spec in X. subst x. exact I. Qed.

Lemma owned_sumh : forall s, owned_sum (see s) = sumh (s_ths s).
Proof. reflexivity. Qed.
Lemma busy_nbs : forall s, busy_count (see s) = nb (s_ths s).
Proof. intros. apply busy_nb. Qed.

Definition same_threads (step : st -> nat -> act -> option st) : Prop :=
  forall s i a s', step s i a = Some s' -> List.length (s_ths s') = List.length (s_ths s).
Lemma obj_same : forall p, same_threads (obj_step p).
Proof.
  intros p s i a s' H. unfold obj_step in H. destruct (nth_error (s_ths s) i) as [[h q]|]; [|discriminate H].
  destruct a, q; try discriminate H; try destruct h; try discriminate H; try (injection H as <-; cbn [touch free_it s_ths]; rewrite ?set_length; reflexivity).
  - destruct (s_refs s =? r); injection H as <-; cbn [touch s_ths]; now rewrite set_length.
  - destruct (s_refs s =? r); injection H as <-; cbn [touch s_ths]; now rewrite set_length.
  - destruct (give (s_ths s) i j) eqn:G; [|discriminate H]. injection H as <-. apply (give_spec _ _ _ _ G).
  - destruct (give (s_ths s) i j) eqn:G; [|discriminate H]. injection H as <-. apply (give_spec _ _ _ _ G).
Qed.
Lemma plain_same : forall p, same_threads (plain_step p).
Proof.
  intros p s i a s' H. unfold plain_step in H. destruct (nth_error (s_ths s) i) as [[h q]|]; [|discriminate H].
  destruct a, q; try discriminate H; try destruct h; try discriminate H; try (injection H as <-; cbn [touch free_it s_ths]; rewrite ?set_length; reflexivity).
  - destruct (give (s_ths s) i j) eqn:G; [|discriminate H]. injection H as <-. apply (give_spec _ _ _ _ G).
  - destruct (give (s_ths s) i j) eqn:G; [|discriminate H]. injection H as <-. apply (give_spec _ _ _ _ G).
Qed.
Lemma states_head : forall step s tr l, states step s tr = Some l -> In s l.
Proof.
  intros step s [|[i a] tr] l H; cbn in H; [injection H as <-; left; reflexivity|].
  destruct (step s i a); [|discriminate H]. destruct (states step s0 tr); [|discriminate H]. injection H as <-. left. reflexivity.
Qed.

(** Objects: for every number of threads and every schedule, provided the references owned plus
    the threads do not exceed the largest count. *)
Theorem C40_object_partial : forall n tr l,
  states (obj_step true) (start n) tr = Some l ->
  (forall s, In s l -> Z.of_nat (owned_sum (see s) + (n + 1)) <= 4294967295) ->
  forall s, In s l -> counted_well (see s).
Proof.
  intros n tr l. assert (T : List.length (s_ths (start n)) = (n + 1)%nat) by (cbn; rewrite repeat_length; lia).
  generalize (start_core 0 n), (start_ok (fun _ => True) True n), T. generalize (start n). clear T.
  revert l. induction tr as [|[i a] tr IH]; intros l s0 C O T H B s I.
  - cbn in H. injection H as <-. destruct I as [<-|[]]. exact (core_good _ _ C).
  - cbn [states] in H. destruct (obj_step true s0 i a) as [s1|] eqn:E; [|discriminate H].
    destruct (states (obj_step true) s1 tr) as [r|] eqn:R; [|discriminate H]. injection H as <-.
    destruct I as [<-|I]; [exact (core_good _ _ C)|].
    pose proof (B s0 (or_introl eq_refl)) as B0. rewrite owned_sumh in B0.
    destruct (obj_keeps s0 i a s1 C O) as [C1 O1]; [rewrite T; exact B0|exact E|].
    apply (IH r s1 C1 O1); [rewrite (obj_same _ _ _ _ _ E); exact T|exact R| |exact I].
    intros x X. apply B. right. exact X.
Qed.
Print Assumptions C40_object_partial.

(** two threads release at the same time; both had read the count 2 *)
Example C40_object_ex : exists l s,
  states (obj_step true) (start 1)
    [(0, Take); (0, Go); (0, Give 1); (0, Use); (0, Release); (1, Release); (0, Go); (1, Go); (1, Go);
     (0, Go); (0, Go); (0, Go); (0, Go)]%nat = Some l /\
  In s l /\ v_frees (see s) = 1%nat /\ owned_sum (see s) = 0%nat /\ busy_count (see s) = 0%nat.
Proof.
  eexists. eexists (mkst 0 false 1 false [mkth 0 Idle; mkth 0 Idle]). split; [vm_compute; reflexivity|].
  split; [|repeat split; reflexivity]. do 13 right. left. reflexivity.
Qed.

(** Messages and table definitions: when at most one thread at a time is inside an operation. *)
Theorem C40_plain_partial : forall limit n tr l,
  states (plain_step limit) (start n) tr = Some l ->
  (forall s, In s l -> Z.of_nat (owned_sum (see s) + (n + 1)) <= 4294967295) ->
  (forall s, In s l -> (busy_count (see s) <= 1)%nat) ->
  forall s, In s l -> counted_well (see s).
Proof.
  intros limit n tr l. assert (T : List.length (s_ths (start n)) = (n + 1)%nat) by (cbn; rewrite repeat_length; lia).
  generalize (start_core 1 n), (start_ok (eq (s_refs (start n))) (s_refs (start n) <> 1) n), T. generalize (start n). clear T.
  revert l. induction tr as [|[i a] tr IH]; intros l s0 C O T H B U s I.
  - cbn in H. injection H as <-. destruct I as [<-|[]]. exact (core_good _ _ C).
  - cbn [states] in H. destruct (plain_step limit s0 i a) as [s1|] eqn:E; [|discriminate H].
    destruct (states (plain_step limit) s1 tr) as [r|] eqn:R; [|discriminate H]. injection H as <-.
    destruct I as [<-|I]; [exact (core_good _ _ C)|].
    pose proof (B s0 (or_introl eq_refl)) as B0. rewrite owned_sumh in B0.
    pose proof (U s0 (or_introl eq_refl)) as U0. rewrite busy_nbs in U0.
    destruct (plain_keeps limit s0 i a s1 C O U0) as [C1 O1]; [rewrite T; exact B0|exact E|].
    apply (IH r s1 C1 O1); [rewrite (plain_same _ _ _ _ _ E); exact T|exact R| | |exact I].
    + intros x X. apply B. right. exact X.
    + intros x X. apply U. right. exact X.
Qed.
Print Assumptions C40_plain_partial.

Example C40_plain_ex : exists l s,
  states (plain_step true) (start 1)
    [(0, Take); (0, Go); (0, Go); (0, Give 1); (0, Release); (0, Go); (0, Go); (1, Use); (1, Release); (1, Go)]%nat = Some l /\
  (forall s, In s l -> (busy_count (see s) <= 1)%nat) /\ In s l /\ v_frees (see s) = 1%nat /\ owned_sum (see s) = 0%nat.
Proof.
  eexists. eexists (mkst 1 false 1 false [mkth 0 Idle; mkth 0 Idle]). split; [vm_compute; reflexivity|].
  split; [|split; [|repeat split; reflexivity]].
  - intros s I. cbn in I. repeat (destruct I as [<-|I]; [vm_compute; lia|]). destruct I.
  - do 10 right. left. reflexivity.
Qed.

(** Two threads take a reference to a message at the same time: one is lost, the message is freed
    while it is owned, and its owner then reads freed memory. *)
Theorem C40_plain_refuted : exists limit tr l s,
  states (plain_step limit) (start 1) tr = Some l /\ In s l /\ v_bad (see s) = true.
Proof.
  exists true, [(0, Take); (0, Go); (0, Go); (0, Give 1);
    (0, Take); (0, Go); (1, Take); (1, Go); (0, Go); (1, Go);
    (0, Release); (0, Go); (0, Go); (0, Release); (0, Go); (0, Go); (1, Release); (1, Go); (1, Use)]%nat.
  eexists. eexists (mkst 1 false 1 true [mkth 0 Idle; mkth 1 Idle]). split; [vm_compute; reflexivity|].
  split; [|reflexivity]. do 19 right. left. reflexivity.
Qed.
Print Assumptions C40_plain_refuted.

(** An object whose pointer is NULL is never freed. *)
Theorem C40_null_refuted : exists tr l s,
  states (obj_step false) (start 0) tr = Some l /\ In s l /\
  owned_sum (see s) = 0%nat /\ busy_count (see s) = 0%nat /\ v_frees (see s) = 0%nat.
Proof.
  exists [(0%nat, Release)]. eexists. eexists (mkst 1 true 0 false [mkth 0 Idle]). split; [vm_compute; reflexivity|].
  split; [right; left; reflexivity|]. repeat split; reflexivity.
Qed.
Print Assumptions C40_null_refuted.
