(** C49: the lock for many readers or one writer. *)
From Verif Require Import Base S_rwlock M_rwlock.
From Coq Require Import ZifyBool ZifyNat.

Lemma set_pc_length : forall l i p, length (set_pc l i p) = length l.
Proof. induction l; destruct i; simpl; auto. Qed.
Lemma set_pc_split : forall l i q p, nth_error l i = Some q -> exists a b, l = a ++ q :: b /\ set_pc l i p = a ++ p :: b /\ length a = i.
Proof.
  induction l as [|x l IH]; intros [|i] q p H; try discriminate H.
  - injection H as ->. exists [], l. auto.
  - destruct (IH i q p H) as (a & b & -> & E & L). exists (x :: a), b. simpl. rewrite E, L. auto.
Qed.
Lemma readers_app : forall a b, readers (a ++ b) = (readers a + readers b)%nat.
Proof. intros. unfold readers. rewrite filter_app, app_length. reflexivity. Qed.
Lemma writers_app : forall a b, writers (a ++ b) = (writers a + writers b)%nat.
Proof. intros. unfold writers. rewrite filter_app, app_length. reflexivity. Qed.
Definition one (b : bool) : nat := if b then 1%nat else 0%nat.
Lemma readers_cons : forall h b, readers (h :: b) = (one (match h with HRead => true | _ => false end) + readers b)%nat.
Proof. destruct h; reflexivity. Qed.
Lemma writers_cons : forall h b, writers (h :: b) = (one (match h with HWrite => true | _ => false end) + writers b)%nat.
Proof. destruct h; reflexivity. Qed.
Lemma readers_le : forall l, (readers l <= length l)%nat.
Proof. induction l as [|x l IH]; [auto|]. rewrite readers_cons. simpl. destruct x; simpl; lia. Qed.

(** the counters say what is held *)
Definition rwinv (n : nat) (s : rwst) : Prop :=
  length (rw_th s) = n /\ rw_reads s = Z.of_nat (readers (rwsee s)) /\ rw_writes s = Z.of_nat (writers (rwsee s)) /\ exclusive (rwsee s).
Definition waitw (l : list lpc) : Prop := In LWaitW l.

Ltac split_th H := let a := fresh "a" in let b := fresh "b" in
  match type of H with nth_error ?l ?i = Some ?q => destruct (set_pc_split l i q LOut H) as (a & b & ? & _ & ?) end.

Lemma set_counts : forall l i q p, nth_error l i = Some q ->
  (readers (map holds (set_pc l i p)) + one (match holds q with HRead => true | _ => false end) =
   readers (map holds l) + one (match holds p with HRead => true | _ => false end))%nat /\
  (writers (map holds (set_pc l i p)) + one (match holds q with HWrite => true | _ => false end) =
   writers (map holds l) + one (match holds p with HWrite => true | _ => false end))%nat.
Proof.
  intros l i q p H. destruct (set_pc_split l i q p H) as (a & b & -> & -> & _).
  rewrite !map_app. cbn [map]. rewrite !readers_app, !writers_app, !readers_cons, !writers_cons. lia.
Qed.

Lemma to_s_int : forall x, - 2147483648 <= x < 2147483648 -> to_s 32 x = x.
Proof. intros x H. apply to_s_small; [lia|]. change (2 ^ (32 - 1)) with 2147483648. lia. Qed.

Lemma rwstep_inv : forall n s i o s', Z.of_nat n < 2147483648 -> rwinv n s -> rwstep s i o = Some s' -> rwinv n s'.
Proof.
  intros n s i o s' N (I1 & I2 & I3 & I4) E. unfold rwstep in E. destruct (nth_error (rw_th s) i) as [p|] eqn:P; [|discriminate].
  pose proof (readers_le (rwsee s)) as RL. unfold rwsee in RL at 2. rewrite map_length, I1 in RL.
  assert (W1 : (writers (rwsee s) <= 1)%nat) by (destruct I4; lia).
  assert (R : forall f s', holds p = HNone -> holds f = HNone -> take_r s i f = Some s' -> rwinv n s').
  { clear E s'. intros f s' HP HF E. unfold take_r in E. destruct (rw_try s || (0 <? rw_writes s)) eqn:C.
    - injection E as <-. destruct (set_counts _ i p f P) as [A B]. rewrite HP, HF in A, B. unfold rwinv, rwsee; cbn [rw_th rw_reads rw_writes]. rewrite set_pc_length.
      unfold rwsee in *. unfold exclusive in *. cbn [one] in *. repeat split; try lia.
    - destruct (rw_reads s <? 0); [discriminate|]. injection E as <-. destruct (set_counts _ i p LHasR P) as [A B]. rewrite HP in A, B.
      unfold rwinv, rwsee; cbn [rw_th rw_reads rw_writes]. rewrite set_pc_length. unfold rwsee in *. unfold exclusive in *. cbn [one holds] in *.
      rewrite (to_s_int (rw_reads s + 1)); repeat split; try lia. 
      destruct (nth_error_split _ _ P) as (a & b & X & _).
      assert (readers (map holds (rw_th s)) < n)%nat; [|lia].
      rewrite X, map_app, readers_app. cbn [map]. rewrite readers_cons, HP. cbn [one].
      rewrite <- I1, X, app_length. cbn [length]. pose proof (readers_le (map holds a)). pose proof (readers_le (map holds b)). rewrite map_length in *. lia. }
  assert (W : forall f s', holds p = HNone -> holds f = HNone -> take_w s i f = Some s' -> rwinv n s').
  { clear E s' R. intros f s' HP HF E. unfold take_w in E. destruct ((0 <? rw_reads s) || (0 <? rw_writes s)) eqn:C.
    - injection E as <-. destruct (set_counts _ i p f P) as [A B]. rewrite HP, HF in A, B. unfold rwinv, rwsee; cbn [rw_th rw_reads rw_writes]. rewrite set_pc_length.
      unfold rwsee in *. unfold exclusive in *. cbn [one] in *. repeat split; try lia.
    - destruct (rw_writes s <? 0); [discriminate|]. injection E as <-. destruct (set_counts _ i p LHasW P) as [A B]. rewrite HP in A, B.
      unfold rwinv, rwsee; cbn [rw_th rw_reads rw_writes]. rewrite set_pc_length. unfold rwsee in *. unfold exclusive in *. cbn [one holds] in *.
      rewrite (to_s_int (rw_writes s + 1)); repeat split; try lia. }
  destruct p, o; try discriminate E; cbv zeta in E;
    try (apply (R _ _ eq_refl) in E; [exact E|reflexivity]); try (apply (W _ _ eq_refl) in E; [exact E|reflexivity]).
  - destruct (to_s 32 (rw_reads s - 1) <? 0) eqn:C; [discriminate|]. injection E as <-.
    destruct (set_counts _ i _ LOut P) as [A B]. unfold rwinv, rwsee; cbn [rw_th rw_reads rw_writes]. rewrite set_pc_length.
    unfold rwsee in *. unfold exclusive in *. cbn [one holds] in *. rewrite to_s_int in *; repeat split; lia.
  - destruct (to_s 32 (rw_writes s - 1) <? 0) eqn:C; [discriminate|]. injection E as <-.
    destruct (set_counts _ i _ LOut P) as [A B]. unfold rwinv, rwsee; cbn [rw_th rw_reads rw_writes]. rewrite set_pc_length.
    unfold rwsee in *. unfold exclusive in *. cbn [one holds] in *. rewrite to_s_int in *; repeat split; lia.
Qed.

Lemma start_counts : forall n, readers (map holds (repeat LOut n)) = 0%nat /\ writers (map holds (repeat LOut n)) = 0%nat.
Proof. induction n as [|n [A B]]; [auto|]. cbn [repeat map]. rewrite readers_cons, writers_cons, A, B. auto. Qed.
Lemma start_inv : forall n, rwinv n (rwstart n).
Proof.
  intros n. unfold rwinv, rwstart, rwsee; cbn [rw_th rw_reads rw_writes]. destruct (start_counts n) as [-> E]. unfold exclusive. rewrite E, repeat_length. auto.
Qed.
Lemma run_inv : forall n l s s', Z.of_nat n < 2147483648 -> rwinv n s -> rwrun s l = Some s' -> rwinv n s'.
Proof.
  induction l as [|a l IH]; intros s s' N I0 E; simpl in E. { injection E as <-. exact I0. }
  destruct (rwstep s (fst a) (snd a)) as [s1|] eqn:E1; [|discriminate]. exact (IH s1 s' N (rwstep_inv n s _ _ s1 N I0 E1) E).
Qed.

(** C49, first part: mutual exclusion, for every number of threads below 2^31 and every schedule *)
Theorem C49_exclusive : forall n l s, Z.of_nat n < 2147483648 -> rwrun (rwstart n) l = Some s -> exclusive (rwsee s).
Proof. intros n l s N E. apply (run_inv n l _ _ N (start_inv n) E). Qed.

(** no assert fails: what a thread may do by its place, it can do *)
Definition allowed (p : lpc) (o : lop) : Prop :=
  match p with
  | LOut => o <> Again /\ o <> Release
  | LWaitR | LWaitW => o = Again
  | LHasR | LHasW => o = Release
  end.
Theorem C49_no_assert : forall n l s i p o, Z.of_nat n < 2147483648 -> rwrun (rwstart n) l = Some s ->
  nth_error (rw_th s) i = Some p -> allowed p o -> exists s', rwstep s i o = Some s'.
Proof.
  intros n l s i p o N E P A. pose proof (run_inv n l _ _ N (start_inv n) E) as (I1 & I2 & I3 & I4).
  destruct (set_counts _ i p LOut P) as [C D]. fold (rwsee s) in C, D.
  pose proof (readers_le (rwsee s)) as RL. unfold rwsee in RL at 2. rewrite map_length, I1 in RL.
  assert (W1 : (writers (rwsee s) <= 1)%nat) by (destruct I4; lia).
  unfold rwstep. rewrite P.
  assert (TR : forall f, exists s', take_r s i f = Some s').
  { intros f. unfold take_r. destruct (rw_try s || (0 <? rw_writes s)); [eauto|]. replace (rw_reads s <? 0) with false by lia. eauto. }
  assert (TW : forall f, exists s', take_w s i f = Some s').
  { intros f. unfold take_w. destruct ((0 <? rw_reads s) || (0 <? rw_writes s)); [eauto|]. replace (rw_writes s <? 0) with false by lia. eauto. }
  destruct p; unfold allowed in A; try subst o; auto.
  - destruct A as [A1 A2]. destruct o; auto; congruence.
  - cbn [holds one] in C. rewrite to_s_int by lia. replace (rw_reads s - 1 <? 0) with false by lia. eauto.
  - cbn [holds one] in D. rewrite to_s_int by lia. replace (rw_writes s - 1 <? 0) with false by lia. eauto.
Qed.

(** without sis_mutex_rw_try_lock_w the mark of a waiting writer belongs to one *)
Lemma set_pc_in : forall l i q p x, nth_error l i = Some q -> In x l -> x <> q -> In x (set_pc l i p).
Proof.
  intros l i q p x H A B. destruct (set_pc_split l i q p H) as (a & b & -> & -> & _).
  apply in_app_or in A. destruct A as [A|[A|A]]; [| congruence |]; apply in_or_app; simpl; auto.
Qed.
Lemma set_pc_new : forall l i q p, nth_error l i = Some q -> In p (set_pc l i p).
Proof. intros l i q p H. destruct (set_pc_split l i q p H) as (a & b & _ & -> & _). apply in_or_app; simpl; auto. Qed.
Lemma mark_step : forall s i o s', o <> TryW -> (rw_try s = true -> waitw (rw_th s)) -> rwstep s i o = Some s' -> rw_try s' = true -> waitw (rw_th s').
Proof.
  intros s i o s' NT M E T. unfold rwstep in E. destruct (nth_error (rw_th s) i) as [p|] eqn:P; [|discriminate]. unfold waitw in *.
  assert (R : forall f, p <> LWaitW -> take_r s i f = Some s' -> In LWaitW (rw_th s')).
  { clear E. intros f H E. unfold take_r in E. destruct (rw_try s || (0 <? rw_writes s)); [|destruct (rw_reads s <? 0); [discriminate|]];
      injection E as <-; cbn [rw_try rw_th] in *; eapply set_pc_in; eauto. }
  assert (W : take_w s i LWaitW = Some s' -> In LWaitW (rw_th s')).
  { clear E R. intros E. unfold take_w in E. destruct ((0 <? rw_reads s) || (0 <? rw_writes s)); [|destruct (rw_writes s <? 0); [discriminate|]];
      injection E as <-; cbn [rw_try rw_th] in *; [eapply set_pc_new; eauto|discriminate T]. }
  destruct p, o; try discriminate E; try congruence; try (apply W, E); try (eapply R; [|exact E]; discriminate); cbv zeta in E.
  - destruct (to_s 32 (rw_reads s - 1) <? 0); [discriminate|]. injection E as <-. cbn [rw_try rw_th] in *. eapply set_pc_in; eauto; discriminate.
  - destruct (to_s 32 (rw_writes s - 1) <? 0); [discriminate|]. injection E as <-. cbn [rw_try rw_th] in *. eapply set_pc_in; eauto; discriminate.
Qed.
Lemma mark_run : forall l s s', ~ In TryW (map snd l) -> (rw_try s = true -> waitw (rw_th s)) -> rwrun s l = Some s' -> rw_try s' = true -> waitw (rw_th s').
Proof.
  induction l as [|a l IH]; intros s s' NT M E; simpl in E. { injection E as <-. exact M. }
  destruct (rwstep s (fst a) (snd a)) as [s1|] eqn:E1; [|discriminate].
  assert (N1 : snd a <> TryW) by (intros H; apply NT; left; exact H).
  assert (N2 : ~ In TryW (map snd l)) by (intros H; apply NT; right; exact H).
  exact (IH s1 s' N2 (mark_step s _ _ s1 N1 M E1) E).
Qed.

Lemma nobody_counts : forall l, nobody l -> readers l = 0%nat /\ writers l = 0%nat.
Proof. induction l as [|h l IH]; intros H; [auto|]. inversion H; subst. destruct (IH H3) as [A B]. rewrite readers_cons, writers_cons, A, B. auto. Qed.

(** C49, second part: whenever nobody holds the lock and somebody waits, some waiting thread gets it with its next turn *)
Theorem C49_progress_partial : forall n l s, Z.of_nat n < 2147483648 -> rwrun (rwstart n) l = Some s -> ~ In TryW (map snd l) ->
  nobody (rwsee s) -> (exists p, In p (rw_th s) /\ (p = LWaitR \/ p = LWaitW)) ->
  exists i s', rwstep s i Again = Some s' /\ nth i (rwsee s) HNone = HNone /\ nth i (rwsee s') HNone <> HNone.
Proof.
  intros n l s N E NT NB (p & IP & WP). pose proof (run_inv n l _ _ N (start_inv n) E) as (I1 & I2 & I3 & I4).
  assert (M : rw_try s = true -> waitw (rw_th s)) by (apply (mark_run l (rwstart n) s NT); [discriminate|exact E]).
  destruct (nobody_counts _ NB) as [C D]. rewrite C in I2. rewrite D in I3.
  assert (HW : forall i, nth_error (rw_th s) i = Some LWaitW -> exists s', rwstep s i Again = Some s' /\ nth i (rwsee s') HNone = HWrite).
  { intros i P. unfold rwstep. rewrite P. unfold take_w. rewrite I2, I3. simpl. eexists; split; [reflexivity|].
    unfold rwsee; cbn [rw_th]. destruct (set_pc_split _ _ _ LHasW P) as (a & b & _ & -> & L). rewrite map_app, app_nth2; rewrite map_length; [|lia].
    rewrite L, Nat.sub_diag. reflexivity. }
  assert (HN : forall i q, nth_error (rw_th s) i = Some q -> (q = LWaitR \/ q = LWaitW) -> nth i (rwsee s) HNone = HNone).
  { intros i q P Q. apply nth_error_nth. unfold rwsee. rewrite nth_error_map, P. destruct Q; subst; reflexivity. }
  assert (A : waitw (rw_th s) -> exists i s', rwstep s i Again = Some s' /\ nth i (rwsee s) HNone = HNone /\ nth i (rwsee s') HNone <> HNone).
  { intros H. apply In_nth_error in H. destruct H as [i H]. destruct (HW i H) as (s' & E1 & E2). exists i, s'. rewrite E2. split; [exact E1|]. split; [eapply HN; eauto|discriminate]. }
  destruct (rw_try s) eqn:T; [auto|]. destruct WP as [->| ->]; [|auto].
  apply In_nth_error in IP. destruct IP as [i P]. exists i. unfold rwstep. rewrite P. unfold take_r. rewrite T, I2, I3. simpl. eexists; split; [reflexivity|].
  split; [eapply HN; eauto|]. unfold rwsee; cbn [rw_th]. destruct (set_pc_split _ _ _ LHasR P) as (a & b & _ & -> & L). rewrite map_app, app_nth2; rewrite map_length; [|lia].
  rewrite L, Nat.sub_diag. discriminate.
Qed.

(** a failed sis_mutex_rw_try_lock_w leaves its mark: with nobody in the lock, no reader ever gets it *)
Theorem C49_try_refuted : exists l s, rwrun (rwstart 2) l = Some s /\ rw_th s = [LOut; LOut] /\
  forall l' s', rwrun s l' = Some s' -> ~ In CallW (map snd l') -> ~ In TryW (map snd l') -> nobody (rwsee s').
Proof.
  exists [(0%nat, CallR); (1%nat, TryW); (0%nat, Release)]. eexists. split; [reflexivity|]. split; [reflexivity|].
  assert (G : forall l' s s', rw_try s = true -> (forall p, In p (rw_th s) -> p = LOut \/ p = LWaitR) -> rwrun s l' = Some s' -> ~ In CallW (map snd l') -> ~ In TryW (map snd l') -> nobody (rwsee s')).
  { induction l' as [|[i o] l' IH]; intros s s' T P E N1 N2; simpl in E.
    - injection E as <-. unfold nobody, rwsee. apply Forall_forall. intros h H. apply in_map_iff in H. destruct H as (p & <- & H). destruct (P p H); subst; reflexivity.
    - simpl in N1, N2. destruct (rwstep s i o) as [s1|] eqn:E1; [|discriminate].
      assert (X : rw_try s1 = true /\ forall p, In p (rw_th s1) -> p = LOut \/ p = LWaitR).
      { unfold rwstep in E1. destruct (nth_error (rw_th s) i) as [p|] eqn:Q; [|discriminate]. pose proof (P p (nth_error_In _ _ Q)) as PP.
        assert (R : forall f, (f = LOut \/ f = LWaitR) -> take_r s i f = Some s1 -> rw_try s1 = true /\ forall p, In p (rw_th s1) -> p = LOut \/ p = LWaitR).
        { intros f F E2. unfold take_r in E2. rewrite T in E2. injection E2 as <-. cbn [rw_try rw_th]. split; [auto|].
          destruct (set_pc_split _ _ _ f Q) as (a & b & X & -> & _). intros q H. apply in_app_or in H. destruct H as [H|[H|H]]; [|subst; auto|];
            apply P; rewrite X; apply in_or_app; simpl; auto. }
        destruct PP; subst p; destruct o; try discriminate E1; try (exfalso; apply N1; left; reflexivity); try (exfalso; apply N2; left; reflexivity);
          first [apply (R LOut); [left; reflexivity|exact E1] | apply (R LWaitR); [right; reflexivity|exact E1]]. }
      destruct X as [X1 X2]. apply (IH s1 s' X1 X2 E); intros H; [apply N1|apply N2]; right; exact H. }
  intros l' s' E N1 N2. refine (G l' _ s' _ _ E N1 N2); [reflexivity|]. simpl. intros p [H|[H|[]]]; auto.
Qed.

Example C49_ok : exists s, rwrun (rwstart 3) [(0%nat, CallR); (1%nat, CallR); (2%nat, CallW); (0%nat, Release); (0%nat, CallR); (1%nat, Release); (2%nat, Again)] = Some s /\
  rwsee s = [HNone; HNone; HWrite] /\ rw_th s = [LWaitR; LOut; LHasW].
Proof. eexists. split; [reflexivity|]. split; reflexivity. Qed.
Example C49_progress_ok : exists s, rwrun (rwstart 2) [(0%nat, CallR); (1%nat, CallW); (0%nat, Release)] = Some s /\
  nobody (rwsee s) /\ rw_try s = true /\ rw_th s = [LOut; LWaitW].
Proof. eexists. split; [reflexivity|]. split; [repeat constructor|]. split; reflexivity. Qed.

Print Assumptions C49_exclusive.
Print Assumptions C49_no_assert.
Print Assumptions C49_progress_partial.
Print Assumptions C49_try_refuted.
