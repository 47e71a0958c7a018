(** Lemmas on reference counts. *)
From Verif Require Import Base S_refs M_refs.
From Coq Require Import ZifyBool ZifyNat.

Definition sumh (l : list thread) : nat := list_sum (map t_hold l).
Definition isf (t : thread) : nat := match t_pc t with DecrFree => 1%nat | _ => 0%nat end.
Definition nf (l : list thread) : nat := list_sum (map isf l).
Definition isb (t : thread) : nat := if busy (t_pc t) then 1%nat else 0%nat.
Definition nb (l : list thread) : nat := list_sum (map isb l).

Lemma sum_cons : forall x l, list_sum (x :: l) = (x + list_sum l)%nat.
Proof. reflexivity. Qed.
Lemma set_length : forall l i t, List.length (set_th l i t) = List.length l.
Proof. induction l; destruct i; intros; cbn; auto. Qed.
Lemma set_sum : forall (f : thread -> nat) l i o t, nth_error l i = Some o ->
  (list_sum (map f (set_th l i t)) + f o = list_sum (map f l) + f t)%nat.
Proof.
  induction l as [|x l IH]; destruct i; intros o t H; try discriminate H; cbn [nth_error] in H.
  - injection H as ->. cbn [set_th map]. rewrite !sum_cons. lia.
  - specialize (IH i o t H). cbn [set_th map]. rewrite !sum_cons. lia.
Qed.
Lemma set_Forall : forall (P : thread -> Prop) l i t, Forall P l -> P t -> Forall P (set_th l i t).
Proof. intros P. induction l; destruct i; intros t F H; cbn; auto; inversion F; constructor; auto. Qed.
Lemma sum_ge : forall (f : thread -> nat) l i o, nth_error l i = Some o -> (f o <= list_sum (map f l))%nat.
Proof. induction l; destruct i; intros o H; try discriminate H; cbn [nth_error map] in *; rewrite sum_cons; [injection H as ->; lia|]. specialize (IHl i o H). lia. Qed.
Lemma sum_isf_busy : forall l, (nf l <= nb l)%nat.
Proof. unfold nf, nb. induction l as [|[h p] l IH]; [reflexivity|]. cbn [map]. rewrite !sum_cons. assert (isf (mkth h p) <= isb (mkth h p))%nat by (destruct p; cbv; lia). lia. Qed.
Lemma busy_nb : forall l, List.length (filter (fun b => b) (map (fun t => busy (t_pc t)) l)) = nb l.
Proof. unfold nb. induction l as [|[h p] l IH]; [reflexivity|]. cbn [map]. rewrite !sum_cons, <- IH. destruct p; reflexivity. Qed.

(** what a thread inside an operation owns; [ex r]: the count it read, where it matters; [dl]: what
    holds while a reference is being given up *)
Definition okt (ex : Z -> Prop) (dl : Prop) (t : thread) : Prop :=
  match t_pc t with
  | Idle | DecrFree => True
  | IncrAdd => (1 <= t_hold t)%nat
  | DecrLoad => (1 <= t_hold t)%nat /\ dl
  | IncrStore r => (1 <= t_hold t)%nat /\ ex r
  | DecrSwap r => (1 <= t_hold t)%nat /\ ex r /\ dl
  end.
(** [k] = 1 if the count stays 1 while the object is being freed *)
Definition core (k : nat) (s : st) : Prop :=
  s_bad s = false /\
  (if s_live s
   then s_frees s = 0%nat /\ s_refs s = Z.of_nat (sumh (s_ths s) + k * nf (s_ths s)) /\ (nf (s_ths s) <= 1)%nat /\
        (nf (s_ths s) = 1%nat -> sumh (s_ths s) = 0%nat) /\ (sumh (s_ths s) = 0%nat -> nf (s_ths s) = 1%nat)
   else s_frees s = 1%nat /\ sumh (s_ths s) = 0%nat /\ nf (s_ths s) = 0%nat).

Lemma core_good : forall k s, core k s -> counted_well (see s).
Proof.
  intros k s [B C]. unfold counted_well, owned_sum, busy_count, see; cbn [v_owned v_busy v_frees v_bad].
  rewrite busy_nb. fold (sumh (s_ths s)). pose proof (sum_isf_busy (s_ths s)).
  destruct (s_live s); split; auto; repeat split; lia.
Qed.

Lemma give_spec : forall l i j l', give l i j = Some l' ->
  sumh l' = sumh l /\ nf l' = nf l /\ nb l' = nb l /\ List.length l' = List.length l /\
  (forall ex dl, Forall (okt ex dl) l -> Forall (okt ex dl) l').
Proof.
  intros l i j l' H. unfold give in H. destruct (nth_error l i) as [[[|h] p]|] eqn:E; try discriminate H.
  destruct p; try discriminate H.
  destruct (nth_error (set_th l i (mkth h Idle)) j) as [t|] eqn:F; [|discriminate H]. injection H as <-.
  assert (G : forall f : thread -> nat, (list_sum (map f (set_th (set_th l i (mkth h Idle)) j (mkth (S (t_hold t)) (t_pc t)))) + f t + f (mkth (S h) Idle)
            = list_sum (map f l) + f (mkth (S (t_hold t)) (t_pc t)) + f (mkth h Idle))%nat).
  { intros f. pose proof (set_sum f _ _ _ (mkth h Idle) E). pose proof (set_sum f _ _ _ (mkth (S (t_hold t)) (t_pc t)) F). lia. }
  split; [specialize (G t_hold); unfold sumh; cbn [t_hold] in G; lia|].
  split; [specialize (G isf); unfold nf, isf in *; cbn [t_pc] in G; lia|].
  split; [specialize (G isb); unfold nb, isb in *; cbn [t_pc busy] in G; lia|].
  split; [now rewrite !set_length|].
  intros ex dl Fa. assert (F1 : Forall (okt ex dl) (set_th l i (mkth h Idle))) by (apply set_Forall; [assumption|exact I]).
  apply set_Forall; [assumption|]. rewrite Forall_forall in F1. specialize (F1 t (nth_error_In _ _ F)).
  unfold okt in *; cbn [t_hold t_pc]. destruct (t_pc t); intuition lia.
Qed.

Definition okf (ex : Z -> Prop) (dl : Prop) (s : st) : Prop := Forall (okt ex dl) (s_ths s).

(** a step that replaces thread [i]: the numbers before and after *)
Ltac nums E t :=
  pose proof (set_sum t_hold _ _ _ t E); pose proof (set_sum isf _ _ _ t E);
  pose proof (sum_ge t_hold _ _ _ E); pose proof (sum_ge isf _ _ _ E).

Lemma obj_keeps : forall s i a s', core 0 s -> okf (fun _ => True) True s ->
  Z.of_nat (sumh (s_ths s) + List.length (s_ths s)) <= MAX_REFS ->
  obj_step true s i a = Some s' -> core 0 s' /\ okf (fun _ => True) True s'.
Proof.
  intros [r live fr bad l] i a s' [B C] F N H. unfold obj_step in H. cbn [s_refs s_live s_frees s_bad s_ths] in *.
  unfold okf in *. cbn [s_ths] in *.
  destruct (nth_error l i) as [[h p]|] eqn:E; [|discriminate H].
  assert (O : okt (fun _ => True) True (mkth h p)) by (rewrite Forall_forall in F; apply F; eapply nth_error_In; eassumption).
  assert (L : (1 <= List.length l)%nat) by (destruct l; [destruct i; discriminate E|cbn; lia]).
  unfold MAX_REFS in *. subst bad.
  destruct a, p; try discriminate H; cbn [okt t_pc t_hold] in O.
  - destruct h as [|h]; [discriminate H|]. injection H as <-. unfold touch; cbn [s_refs s_live s_frees s_bad s_ths].
    set (t := mkth (S h) (if r =? 4294967295 then Idle else IncrAdd)).
    assert (T : isf t = 0%nat) by (unfold t, isf; cbn [t_pc]; destruct (r =? 4294967295); reflexivity).
    nums E t. change (t_hold t) with (S h) in *. rewrite T in *. cbn [t_hold isf t_pc] in *.
    split; [|apply set_Forall; [assumption|unfold t, okt; cbn [t_pc t_hold]; destruct (r =? 4294967295); cbn; lia || exact I]].
    unfold core, sumh, nf in *; cbn [s_refs s_live s_frees s_bad s_ths]. destruct live; cbn [negb orb] in *; repeat split; lia.
  - destruct h as [|h]; [discriminate H|]. injection H as <-. unfold touch; cbn [s_refs s_live s_frees s_bad s_ths].
    nums E (mkth (S h) DecrLoad). cbn [t_hold isf t_pc] in *.
    split; [|apply set_Forall; [assumption|unfold okt; cbn; intuition lia]].
    unfold core, sumh, nf in *; cbn [s_refs s_live s_frees s_bad s_ths]. destruct live; cbn [negb orb] in *; repeat split; lia.
  - injection H as <-. unfold touch; cbn [s_refs s_live s_frees s_bad s_ths].
    nums E (mkth (S h) Idle). cbn [t_hold isf t_pc] in *.
    split; [|apply set_Forall; [assumption|exact I]].
    unfold core, sumh, nf in *; cbn [s_refs s_live s_frees s_bad s_ths]. destruct live; cbn [negb orb] in *; [|lia].
    rewrite to_u_small by (change (2 ^ 32) with 4294967296; lia). repeat split; lia.
  - injection H as <-. unfold touch; cbn [s_refs s_live s_frees s_bad s_ths].
    nums E (mkth h (DecrSwap r)). cbn [t_hold isf t_pc] in *.
    split; [|apply set_Forall; [assumption|unfold okt; cbn; intuition lia]].
    unfold core, sumh, nf in *; cbn [s_refs s_live s_frees s_bad s_ths]. destruct live; cbn [negb orb] in *; repeat split; lia.
  - destruct (r =? r0) eqn:R; injection H as <-; unfold touch; cbn [s_refs s_live s_frees s_bad s_ths].
    + set (t := mkth (pred h) (if r0 =? 1 then DecrFree else Idle)).
      nums E t. change (t_hold t) with (pred h) in *.
      assert (T : isf t = if r0 =? 1 then 1%nat else 0%nat) by (unfold t, isf; cbn [t_pc]; destruct (r0 =? 1); reflexivity).
      rewrite T in *. cbn [t_hold isf t_pc] in *.
      split; [|apply set_Forall; [assumption|unfold t, okt; cbn [t_pc]; destruct (r0 =? 1); exact I]].
      unfold core, sumh, nf in *; cbn [s_refs s_live s_frees s_bad s_ths]. destruct live; cbn [negb orb] in *; [|lia].
      rewrite to_u_small by (change (2 ^ 32) with 4294967296; lia). destruct (r0 =? 1) eqn:Q; repeat split; lia.
    + nums E (mkth h DecrLoad). cbn [t_hold isf t_pc] in *.
      split; [|apply set_Forall; [assumption|unfold okt; cbn; intuition lia]].
      unfold core, sumh, nf in *; cbn [s_refs s_live s_frees s_bad s_ths]. destruct live; cbn [negb orb] in *; repeat split; lia.
  - injection H as <-. unfold free_it; cbn [s_refs s_live s_frees s_bad s_ths].
    nums E (mkth h Idle). cbn [t_hold isf t_pc] in *.
    split; [|apply set_Forall; [assumption|exact I]].
    unfold core, sumh, nf in *; cbn [s_refs s_live s_frees s_bad s_ths]. destruct live; cbn [negb orb] in *; repeat split; lia.
  - destruct h as [|h]; [discriminate H|]. injection H as <-. unfold touch; cbn [s_refs s_live s_frees s_bad s_ths].
    nums E (mkth (S h) Idle). cbn [t_hold isf t_pc] in *.
    split; [|apply set_Forall; [assumption|exact I]].
    unfold core, sumh, nf in *; cbn [s_refs s_live s_frees s_bad s_ths]. destruct live; cbn [negb orb] in *; repeat split; lia.
  - destruct (give l i j) as [l'|] eqn:G; [|discriminate H]. injection H as <-.
    destruct (give_spec _ _ _ _ G) as (A1 & A2 & _ & _ & A3).
    split; [|apply A3; assumption]. unfold core; cbn [s_refs s_live s_frees s_bad s_ths]. rewrite A1, A2. destruct live; tauto.
Qed.

(** two busy threads *)
Lemma nb_two : forall l i j o p, nth_error l i = Some o -> nth_error l j = Some p -> i <> j ->
  (isb o + isb p <= nb l)%nat.
Proof.
  unfold nb. induction l as [|x l IH]; intros i j o p A B D; [destruct i; discriminate A|].
  destruct i, j; cbn [nth_error] in A, B; try lia.
  - injection A as ->. pose proof (sum_ge isb _ _ _ B). cbn [map]. rewrite sum_cons. lia.
  - injection B as ->. pose proof (sum_ge isb _ _ _ A). cbn [map]. rewrite sum_cons. lia.
  - specialize (IH i j o p A B ltac:(lia)). cbn [map]. rewrite sum_cons. lia.
Qed.
Lemma nth_set : forall l i t j, nth_error (set_th l i t) j = if (i =? j)%nat then (if (i <? List.length l)%nat then Some t else None) else nth_error l j.
Proof.
  induction l as [|x l IH]; intros [|i] t [|j]; cbn; try reflexivity.
  - destruct ((i =? j)%nat); reflexivity.
  - rewrite IH. destruct (i =? j)%nat; [|reflexivity]. reflexivity.
Qed.
(** when thread [i] is the only busy one, the others are idle, so any condition on counts holds for them *)
Lemma only_busy : forall ex dl ex' dl' l i o t, nth_error l i = Some o -> busy (t_pc o) = true -> (nb l <= 1)%nat ->
  Forall (okt ex dl) l -> okt ex' dl' t -> Forall (okt ex' dl') (set_th l i t).
Proof.
  intros ex dl ex' dl' l i o t E B N F T. apply Forall_forall. intros x X. apply In_nth_error in X. destruct X as [j X].
  rewrite nth_set in X. destruct (i =? j)%nat eqn:J.
  - destruct (i <? _)%nat; [injection X as <-; exact T|discriminate X].
  - pose proof (nb_two l i j o x E X ltac:(lia)) as K. unfold isb in K. rewrite B in K.
    unfold okt. destruct (t_pc x); cbn in K; try exact I; lia.
Qed.

Lemma plain_keeps : forall limit s i a s', core 1 s -> okf (eq (s_refs s)) (s_refs s <> 1) s -> (nb (s_ths s) <= 1)%nat ->
  Z.of_nat (sumh (s_ths s) + List.length (s_ths s)) <= MAX_REFS ->
  plain_step limit s i a = Some s' -> core 1 s' /\ okf (eq (s_refs s')) (s_refs s' <> 1) s'.
Proof.
  intros limit [r live fr bad l] i a s' [B C] F M N H. unfold plain_step in H. cbn [s_refs s_live s_frees s_bad s_ths] in *.
  unfold okf in *. cbn [s_ths] in *.
  destruct (nth_error l i) as [[h p]|] eqn:E; [|discriminate H].
  assert (O : okt (eq r) (r <> 1) (mkth h p)) by (rewrite Forall_forall in F; apply F; eapply nth_error_In; eassumption).
  assert (L : (1 <= List.length l)%nat) by (destruct l; [destruct i; discriminate E|cbn; lia]).
  unfold MAX_REFS in *. subst bad.
  destruct a, p; try discriminate H; cbn [okt t_pc t_hold] in O.
  - destruct h as [|h]; [discriminate H|]. injection H as <-. unfold touch; cbn [s_refs s_live s_frees s_bad s_ths].
    pose proof (sum_ge t_hold _ _ _ E). cbn [t_hold] in *.
    assert (limit && (r =? 4294967295) = false) as ->.
    { destruct limit; [|reflexivity]. cbn [andb]. unfold sumh in *. destruct live; lia. }
    nums E (mkth (S h) IncrAdd). cbn [t_hold isf t_pc] in *.
    split; [|apply set_Forall; [assumption|unfold okt; cbn; intuition lia]].
    unfold core, sumh, nf in *; cbn [s_refs s_live s_frees s_bad s_ths]. destruct live; cbn [negb orb] in *; repeat split; lia.
  - destruct h as [|h]; [discriminate H|]. injection H as <-. unfold touch; cbn [s_refs s_live s_frees s_bad s_ths].
    destruct (r =? 1) eqn:R.
    + nums E (mkth h DecrFree). cbn [t_hold isf t_pc] in *.
      split; [|apply set_Forall; [assumption|exact I]].
      unfold core, sumh, nf in *; cbn [s_refs s_live s_frees s_bad s_ths]. destruct live; cbn [negb orb] in *; repeat split; lia.
    + nums E (mkth (S h) DecrLoad). cbn [t_hold isf t_pc] in *.
      split; [|apply set_Forall; [assumption|unfold okt; cbn; intuition lia]].
      unfold core, sumh, nf in *; cbn [s_refs s_live s_frees s_bad s_ths]. destruct live; cbn [negb orb] in *; repeat split; lia.
  - injection H as <-. unfold touch; cbn [s_refs s_live s_frees s_bad s_ths].
    nums E (mkth h (IncrStore r)). cbn [t_hold isf t_pc] in *.
    split; [|apply set_Forall; [assumption|unfold okt; cbn; intuition lia]].
    unfold core, sumh, nf in *; cbn [s_refs s_live s_frees s_bad s_ths]. destruct live; cbn [negb orb] in *; repeat split; lia.
  - injection H as <-. destruct O as [O <-]. unfold touch; cbn [s_refs s_live s_frees s_bad s_ths].
    nums E (mkth (S h) Idle). cbn [t_hold isf t_pc] in *.
    split; [|apply (only_busy (eq r) (r <> 1) _ _ l i _ _ E eq_refl M F); exact I].
    unfold core, sumh, nf in *; cbn [s_refs s_live s_frees s_bad s_ths]. destruct live; cbn [negb orb] in *; [|lia].
    rewrite to_u_small by (change (2 ^ 32) with 4294967296; lia). repeat split; lia.
  - injection H as <-. unfold touch; cbn [s_refs s_live s_frees s_bad s_ths].
    nums E (mkth h (DecrSwap r)). cbn [t_hold isf t_pc] in *.
    split; [|apply set_Forall; [assumption|unfold okt; cbn; intuition lia]].
    unfold core, sumh, nf in *; cbn [s_refs s_live s_frees s_bad s_ths]. destruct live; cbn [negb orb] in *; repeat split; lia.
  - injection H as <-. destruct O as (O & <- & O1). unfold touch; cbn [s_refs s_live s_frees s_bad s_ths].
    nums E (mkth (pred h) Idle). cbn [t_hold isf t_pc] in *.
    split; [|apply (only_busy (eq r) (r <> 1) _ _ l i _ _ E eq_refl M F); exact I].
    unfold core, sumh, nf in *; cbn [s_refs s_live s_frees s_bad s_ths]. destruct live; cbn [negb orb] in *; [|lia].
    rewrite to_u_small by (change (2 ^ 32) with 4294967296; lia). repeat split; lia.
  - injection H as <-. unfold free_it; cbn [s_refs s_live s_frees s_bad s_ths].
    nums E (mkth h Idle). cbn [t_hold isf t_pc] in *.
    split; [|apply set_Forall; [assumption|exact I]].
    unfold core, sumh, nf in *; cbn [s_refs s_live s_frees s_bad s_ths]. destruct live; cbn [negb orb] in *; repeat split; lia.
  - destruct h as [|h]; [discriminate H|]. injection H as <-. unfold touch; cbn [s_refs s_live s_frees s_bad s_ths].
    nums E (mkth (S h) Idle). cbn [t_hold isf t_pc] in *.
    split; [|apply set_Forall; [assumption|exact I]].
    unfold core, sumh, nf in *; cbn [s_refs s_live s_frees s_bad s_ths]. destruct live; cbn [negb orb] in *; repeat split; lia.
  - destruct (give l i j) as [l'|] eqn:G; [|discriminate H]. injection H as <-.
    destruct (give_spec _ _ _ _ G) as (A1 & A2 & _ & _ & A3).
    split; [|apply A3; assumption]. unfold core; cbn [s_refs s_live s_frees s_bad s_ths]. rewrite A1, A2. destruct live; tauto.
Qed.
