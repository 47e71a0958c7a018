(** C34: the wait queue. *)
From Verif Require Import Base S_waitq M_waitq.
From Coq Require Import ZifyBool ZifyNat.

Definition winv (s : wq) : Prop :=
  w_bad s = false /\ (w_head s <= w_tail s)%nat /\ w_tail s = length (w_objs s) /\ w_count s = Z.of_nat (w_tail s - w_head s) /\
  (forall k, (w_head s <= k < w_tail s)%nat -> w_next s k = Some (S k)) /\ w_next s (w_tail s) = None /\
  w_pushed s = w_given s ++ skipn (w_head s) (w_objs s) /\
  length (w_given s) = (w_done s + if w_busy s then 1 else 0)%nat /\ (w_cb s = true -> w_busy s = true) /\ (w_stuck s = true -> w_cb s = true).

Lemma wstart_inv : winv wstart.
Proof. unfold winv. cbn. repeat (split; try reflexivity; try lia; try discriminate). Qed.
Lemma skipn_next : forall n (l : list Z), (n < length l)%nat -> skipn n l = nth n l 0 :: skipn (S n) l.
Proof. induction n as [|n IH]; intros [|x l] H; cbn [length] in H; try lia; [reflexivity|]. cbn [skipn nth]. rewrite IH by lia. reflexivity. Qed.

Lemma wstep_inv : forall s a s', winv s -> wstep s a = Some s' -> winv s'.
Proof.
  intros s a s' (I1 & I2 & I3 & I4 & I5 & I6 & I7 & I8 & I9 & I10) E. destruct a as [m| | | |]; cbn [wstep] in E.
  - destruct (w_cb s) eqn:CB; [discriminate E|]. destruct (negb (w_busy s) && (w_count s =? 0)) eqn:Q; injection E as <-.
    + apply andb_prop in Q. destruct Q as [Q1 Q2]. destruct (w_busy s); [discriminate Q1|].
      unfold winv. cbn [w_bad w_head w_tail w_objs w_count w_next w_pushed w_given w_done w_busy w_cb w_stuck].
      assert (SK : skipn (w_head s) (w_objs s) = []) by (apply skipn_all2; lia).
      rewrite I7, SK, app_nil_r, app_nil_r, app_length. cbn [length]. repeat (split; [first [assumption|lia|reflexivity|discriminate]|]). exact I10.
    + unfold winv. cbn [w_bad w_head w_tail w_objs w_count w_next w_pushed w_given w_done w_busy w_cb w_stuck].
      rewrite app_length. cbn [length]. unfold wfreed. split; [rewrite I1; lia|]. split; [lia|]. split; [lia|]. split; [lia|]. unfold wupd. split.
      * intros k K. destruct (Nat.eqb k (w_tail s)) eqn:Q1; [f_equal; lia|]. replace (Nat.eqb k (S (length (w_objs s)))) with false by lia. apply I5. lia.
      * split; [replace (Nat.eqb (S (length (w_objs s))) (w_tail s)) with false by lia; rewrite Nat.eqb_refl; reflexivity|].
        split; [rewrite I7, skipn_app, <- app_assoc; replace (w_head s - length (w_objs s))%nat with 0%nat by lia; reflexivity|].
        split; [exact I8|]. split; [discriminate|]. intros H. specialize (I10 H). discriminate I10.
  - destruct (w_cb s) eqn:CB; [discriminate E|]. destruct (w_busy s) eqn:B; [injection E as <-; unfold winv; rewrite B, CB; auto 12|].
    unfold wpop in E. destruct (0 <? w_count s) eqn:Q; [|injection E as <-; unfold winv; rewrite B, CB; auto 12].
    rewrite (I5 (w_head s)) in E by lia. cbn [w_bad w_head w_tail w_objs w_count w_next w_pushed w_given w_done w_busy w_cb w_stuck] in E. injection E as <-.
    unfold winv. cbn [w_bad w_head w_tail w_objs w_count w_next w_pushed w_given w_done w_busy w_cb w_stuck]. unfold wfreed.
    split; [rewrite I1; lia|]. split; [lia|]. split; [exact I3|]. split; [lia|]. split; [intros k K; apply I5; lia|]. split; [exact I6|].
    split; [rewrite I7, (skipn_next (w_head s)) by lia; rewrite <- app_assoc; rewrite ?Nat.sub_0_r; reflexivity|].
    split; [rewrite app_length; cbn [length]; lia|]. split; reflexivity.
  - destruct (w_cb s && negb (w_stuck s)) eqn:Q; [|discriminate E]. injection E as <-.
    unfold winv. cbn [w_bad w_head w_tail w_objs w_count w_next w_pushed w_given w_done w_busy w_cb w_stuck]. repeat (split; [first [assumption|discriminate]|]). discriminate.
  - destruct (negb (w_cb s) && (w_done s <? length (w_given s))%nat) eqn:Q; [|discriminate E]. injection E as <-. destruct (w_cb s) eqn:CB; [discriminate Q|].
    unfold winv. cbn [w_bad w_head w_tail w_objs w_count w_next w_pushed w_given w_done w_busy w_cb w_stuck].
    repeat (split; [first [assumption|discriminate]|]). split; [destruct (w_busy s); lia|]. split; [discriminate|exact I10].
  - destruct (w_cb s && negb (w_stuck s)) eqn:Q; [|discriminate E]. injection E as <-. apply andb_prop in Q. destruct Q as [Q _].
    unfold winv. cbn [w_bad w_head w_tail w_objs w_count w_next w_pushed w_given w_done w_busy w_cb w_stuck]. specialize (I9 Q).
    repeat (split; [first [assumption|discriminate]|]). split; [intros _; exact I9|reflexivity].
Qed.
Lemma wstates_inv : forall l s ss, winv s -> wstates s l = Some ss -> Forall winv ss.
Proof.
  induction l as [|a l IH]; intros s ss I E; cbn [wstates] in E; [injection E as <-; constructor; [exact I|constructor]|].
  destruct (wstep s a) as [s'|] eqn:F; [|discriminate E]. destruct (wstates s' l) as [r|] eqn:R; [|discriminate E]. injection E as <-.
  constructor; [exact I|]. apply (IH s' r); [exact (wstep_inv _ _ _ I F)|exact R].
Qed.

(** For every order of pushes, completions and passes of the thread: no object is handed out while
    the one before is being processed, and objects are handed out in push order, each once.  A
    completion is reported once for an object that has been handed out. *)
Theorem C34_one_at_a_time : forall l ss, wstates wstart l = Some ss -> Forall (fun s => hand_out_ok (wsee s)) ss.
Proof.
  intros l ss E. apply Forall_impl with (P := winv); [|exact (wstates_inv l wstart ss wstart_inv E)].
  intros s (I1 & _ & _ & _ & _ & _ & I7 & I8 & _). unfold hand_out_ok, one_at_a_time, in_push_order, wsee. cbn [wv_bad wv_done wv_given wv_pushed].
  split; [exact I1|]. split; [destruct (w_busy s); lia|]. exists (skipn (w_head s) (w_objs s)). exact I7.
Qed.
Print Assumptions C34_one_at_a_time.

(** Nothing is forgotten: from every such state in which the callback does not run, the thread and
    completions alone bring out everything pushed. *)
Lemma drain : forall n s, winv s -> w_cb s = false -> (w_tail s - w_head s <= n)%nat ->
  exists l ss, wstates s l = Some ss /\ Forall (fun a => a = AWork \/ a = AReturn \/ a = ADone) l /\ w_given (last ss s) = w_pushed s.
Proof.
  induction n as [|n IH]; intros s I CB L; pose proof I as (I1 & I2 & I3 & I4 & I5 & I6 & I7 & I8 & I9 & I10).
  - exists [], [s]. split; [reflexivity|]. split; [constructor|]. cbn [last]. rewrite I7, skipn_all2 by lia. symmetry. apply app_nil_r.
  - destruct (Nat.eq_dec (w_head s) (w_tail s)) as [Q|Q].
    { exists [], [s]. split; [reflexivity|]. split; [constructor|]. cbn [last]. rewrite I7, skipn_all2 by lia. symmetry. apply app_nil_r. }
    assert (LD : forall (l : list wq) x a b, last (x :: l) a = last (x :: l) b) by (induction l as [|y l IHl]; intros; [reflexivity|apply (IHl y)]).
    assert (HD : forall x l ss, wstates x l = Some ss -> exists r, ss = x :: r).
    { intros x l ss H. destruct l as [|a l]; cbn [wstates] in H; [injection H as <-; eexists; reflexivity|]. destruct (wstep x a); [|discriminate H].
      destruct (wstates _ l); [|discriminate H]. injection H as <-. eexists. reflexivity. }
    (* from a state that is not busy *)
    assert (G : forall x, winv x -> w_cb x = false -> w_busy x = false -> (w_tail x - w_head x <= S n)%nat -> w_head x <> w_tail x ->
      exists l ss, wstates x l = Some ss /\ Forall (fun a => a = AWork \/ a = AReturn \/ a = ADone) l /\ w_given (last ss x) = w_pushed x).
    { intros x X XC XB XL XQ. pose proof X as (X1 & X2 & X3 & X4 & X5 & X6 & X7 & X8 & X9 & X10).
      assert (W : exists y, wstep x AWork = Some y /\ w_cb y = true /\ w_pushed y = w_pushed x /\ w_head y = S (w_head x) /\ w_tail y = w_tail x /\ w_stuck y = w_stuck x).
      { cbn [wstep]. rewrite XC, XB. unfold wpop. replace (0 <? w_count x) with true by lia. rewrite (X5 (w_head x)) by lia. eexists. split; [reflexivity|]. auto 6. }
      destruct W as (y & W1 & W2 & W3 & W4 & W5 & W6). pose proof (wstep_inv _ _ _ X W1) as Y.
      assert (ST : w_stuck y = false) by (rewrite W6; destruct (w_stuck x); [specialize (X10 eq_refl); congruence|reflexivity]).
      assert (Z : exists z, wstep y AReturn = Some z /\ w_cb z = false /\ w_pushed z = w_pushed y /\ w_head z = w_head y /\ w_tail z = w_tail y).
      { cbn [wstep]. rewrite W2, ST. eexists. split; [reflexivity|]. auto 6. }
      destruct Z as (z & Z1 & Z2 & Z3 & Z4 & Z5). pose proof (wstep_inv _ _ _ Y Z1) as ZI.
      destruct (IH z ZI Z2) as (l & ss & S1 & S2 & S3); [lia|]. exists (AWork :: AReturn :: l), (x :: y :: ss). cbn [wstates]. rewrite W1, Z1, S1.
      split; [reflexivity|]. split; [constructor; [auto|constructor; [auto|exact S2]]|]. destruct (HD _ _ _ S1) as [r ->].
      change (last (x :: y :: z :: r) x) with (last (z :: r) x). rewrite (LD r z x z), S3. congruence. }
    destruct (w_busy s) eqn:B; [|apply (G s); auto].
    assert (D : exists y, wstep s ADone = Some y /\ w_cb y = false /\ w_busy y = false /\ w_pushed y = w_pushed s /\ w_head y = w_head s /\ w_tail y = w_tail s).
    { cbn [wstep]. rewrite CB. replace (w_done s <? length (w_given s))%nat with true by lia. eexists. split; [reflexivity|]. auto 6. }
    destruct D as (y & D1 & D2 & D3 & D4 & D5 & D6). pose proof (wstep_inv _ _ _ I D1) as Y.
    destruct (G y Y D2 D3) as (l & ss & S1 & S2 & S3); [lia|congruence|]. exists (ADone :: l), (s :: ss). cbn [wstates]. rewrite D1, S1.
    split; [reflexivity|]. split; [constructor; [auto|exact S2]|]. destruct (HD _ _ _ S1) as [r ->].
    change (last (s :: y :: r) s) with (last (y :: r) s). rewrite (LD r y s y), S3. exact D4.
Qed.
Theorem C34_all_handed_out : forall l ss s, wstates wstart l = Some ss -> In s ss -> w_cb s = false ->
  exists l' ss', wstates s l' = Some ss' /\ Forall (fun a => a = AWork \/ a = AReturn \/ a = ADone) l' /\
    wv_given (wsee (last ss' s)) = wv_pushed (wsee s).
Proof.
  intros l ss s E S CB. pose proof (wstates_inv l wstart ss wstart_inv E) as I. rewrite Forall_forall in I. specialize (I s S).
  exact (drain _ s I CB (le_n _)).
Qed.
Print Assumptions C34_all_handed_out.

(** The callback runs with the lock held: a callback that pushes to its queue or reports completion
    itself stops the queue and everyone who uses it for ever. *)
Theorem C34_callback_deadlock : exists l ss, wstates wstart l = Some ss /\
  let s := last ss wstart in wv_given (wsee s) <> wv_pushed (wsee s) /\ forall a, wstep s a = None.
Proof.
  exists [APush 1; APush 2; APush 3; ADone; AWork; AInside]. eexists. split; [vm_compute; reflexivity|]. cbn [last]. split; [vm_compute; discriminate|].
  intros [m| | | |]; vm_compute; reflexivity.
Qed.
Print Assumptions C34_callback_deadlock.

Example C34_ok : exists ss, wstates wstart [APush 1; APush 2; AWork; ADone; APush 3; AWork; AReturn; APush 4; ADone; AWork; AReturn; AWork] = Some ss /\
  let s := last ss wstart in w_given s = [1; 2; 3] /\ w_pushed s = [1; 2; 3; 4] /\ w_done s = 2%nat /\ w_cb s = false.
Proof. eexists. split; [vm_compute; reflexivity|]. vm_compute. auto. Qed.
