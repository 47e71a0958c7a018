(** C33: the queue with a write list and a read list. *)
From Verif Require Import Base S_fastq M_fastq L_fastq.
From Coq Require Import ZifyBool ZifyNat.

Lemma states_ind : forall (P : fqs -> Prop) (A : nat * fop -> Prop), (forall s a s', P s -> A a -> fstep s (fst a) (snd a) = Some s' -> P s') ->
  forall l s ss, P s -> (forall a, In a l -> A a) -> fstates s l = Some ss -> Forall P ss.
Proof.
  intros P A ST. induction l as [|a l IH]; intros s ss H HA E; cbn [fstates] in E; [injection E as <-; constructor; [exact H|constructor]|].
  destruct (fstep s (fst a) (snd a)) as [s'|] eqn:F; [|discriminate E]. destruct (fstates s' l) as [r|] eqn:R; [|discriminate E]. injection E as <-.
  constructor; [exact H|]. apply (IH s' r); [apply (ST s a s' H (HA a (or_introl eq_refl)) F)|intros b B; apply HA; right; exact B|exact R].
Qed.
Lemma states_inv : forall n l ss, fstates (fstart n) l = Some ss -> Forall finv ss.
Proof.
  intros n l ss E. apply (states_ind finv (fun _ => True)) with (l := l) (s := fstart n); auto; [|apply fstart_inv].
  intros s a s' I _ F. exact (fstep_inv _ _ _ _ I F).
Qed.

(** For every schedule of any number of threads that push, read and clear: no freed node is touched
    or freed again, and what has been taken out is, for every producer, exactly the first objects it
    pushed, in its order and each once. *)
Theorem C33_fifo : forall n l ss, fstates (fstart n) l = Some ss -> Forall (fun s => fifo_ok (fsee s)) ss.
Proof. intros n l ss E. apply (Forall_impl _ finv_ok (states_inv n l ss E)). Qed.
Print Assumptions C33_fifo.

(** ** without clear everything taken out is given to the consumer *)
Definition reads_only (p : fpc) : Prop :=
  match p with
  | MWait => False
  | MChk d | M1 d | M2 d | M3 d | M4 d | M5 d | MUnl d | DWait d | D0 d | DLoop d _ | DCall d _ _ | DFree d _ _ | DHead d _ => d = true
  | _ => True
  end.
Definition delivers (s : fqs) : Prop := (forall i t, nth_error (q_th s) i = Some t -> reads_only (t_pc t)) /\ Forall (fun x => snd x = true) (q_taken s).
Lemma delivers_step : forall s a s', delivers s -> snd a <> OClear -> fstep s (fst a) (snd a) = Some s' -> delivers s'.
Proof.
  intros s [i o] s' [D1 D2] NC E. cbn [fst snd] in *. unfold fstep in E. destruct (nth_error (q_th s) i) as [t|] eqn:N; [|discriminate E].
  pose proof (D1 i t N) as DT.
  assert (G : forall x p c, q_th x = set_ft (q_th s) i (mkft p c) -> reads_only p -> Forall (fun y => snd y = true) (q_taken x) -> delivers x).
  { intros x p c TH RO TK. split; [|exact TK]. intros j u U. rewrite TH, nth_set_ft in U. destruct (Nat.eqb j i) eqn:Q; [|apply (D1 j u U)].
    rewrite N in U. injection U as <-. exact RO. }
  destruct (t_pc t) eqn:PC; destruct o as [m'| | |]; try discriminate E; try contradiction; cbn [reads_only] in DT;
    repeat match type of E with (match ?c with _ => _ end) = _ => destruct c eqn:?; try discriminate E end;
    injection E as <-; (eapply G; [reflexivity| |]; [|try exact D2]); try exact I; try exact DT; try reflexivity.
  - destruct (q_wnums s <? 1); exact DT.
  - destruct (q_next s a); [exact DT|exact I].
  - cbn. apply Forall_app. split; [exact D2|]. constructor; [exact DT|constructor].
Qed.
Theorem C33_delivered : forall n l ss, fstates (fstart n) l = Some ss -> ~ In OClear (map snd l) ->
  Forall (fun s => Forall (fun x => snd x = true) (q_taken s)) ss.
Proof.
  intros n l ss E NC. apply Forall_impl with (P := delivers); [intros s [_ D]; exact D|].
  apply (states_ind delivers (fun a => snd a <> OClear)) with (l := l) (s := fstart n); [exact delivers_step| | |exact E].
  - split; [|constructor]. intros i t H. apply nth_error_In in H. cbn [fstart q_th] in H. apply repeat_spec in H. subst t. exact I.
  - intros a A H. apply NC. rewrite <- H. apply in_map, A.
Qed.
Print Assumptions C33_delivered.

(** ** nothing is stuck *)
Definition held (s : fqs) : Prop := forall o, q_wl s = Some o \/ q_rl s = Some o -> (o < length (q_th s))%nat.
Lemma held_step : forall s a s', held s -> True -> fstep s (fst a) (snd a) = Some s' -> held s'.
Proof.
  intros s [i o] s' H _ E. cbn [fst snd] in *. unfold fstep in E. destruct (nth_error (q_th s) i) as [t|] eqn:N; [|discriminate E].
  assert (IL : (i < length (q_th s))%nat) by (apply nth_error_Some; congruence).
  assert (G : forall x u, q_th x = set_ft (q_th s) i u -> (q_wl x = q_wl s \/ q_wl x = Some i \/ q_wl x = None) ->
    (q_rl x = q_rl s \/ q_rl x = Some i \/ q_rl x = None) -> held x).
  { intros x u TH W R k K. rewrite TH, length_set_ft. destruct K as [K|K].
    - destruct W as [W|[W|W]]; [apply H; left; congruence|congruence|congruence].
    - destruct R as [R|[R|R]]; [apply H; right; congruence|congruence|congruence]. }
  destruct (t_pc t) eqn:PC; destruct o as [m'| | |]; try discriminate E;
    repeat match type of E with (match ?c with _ => _ end) = _ => destruct c eqn:?; try discriminate E end;
    injection E as <-; (eapply G; [reflexivity| |]; cbn; auto).
Qed.
Lemma in_w_steps : forall s i t, nth_error (q_th s) i = Some t -> in_w (t_pc t) = true -> fstep s i OGo <> None.
Proof. intros s i t N W. unfold fstep. rewrite N. destruct (t_pc t); try discriminate W; discriminate. Qed.
Lemma in_r_steps : forall s i t, nth_error (q_th s) i = Some t -> in_r (t_pc t) = true -> fstep s i OGo <> None.
Proof. intros s i t N W. unfold fstep. rewrite N. destruct (t_pc t); try discriminate W; discriminate. Qed.

(** In every state that can be reached, if some thread is inside a call, some thread inside a call
    can make a step. *)
Theorem C33_no_deadlock : forall n l ss s i t, fstates (fstart n) l = Some ss -> In s ss ->
  nth_error (q_th s) i = Some t -> t_pc t <> FIdle -> exists j, fstep s j OGo <> None.
Proof.
  intros n l ss s i t E S N NI. pose proof (states_inv n l ss E) as I. rewrite Forall_forall in I. specialize (I s S).
  assert (HE : Forall held ss).
  { apply (states_ind held (fun _ => True) held_step) with (l := l) (s := fstart n); auto. intros o [K|K]; discriminate K. }
  rewrite Forall_forall in HE. specialize (HE s S). destruct I as (_ & O & _).
  assert (WG : forall o, q_wl s = Some o -> exists j, fstep s j OGo <> None).
  { intros o K. pose proof (HE o (or_introl K)) as L. apply nth_error_Some in L. destruct (nth_error (q_th s) o) as [u|] eqn:U; [|contradiction].
    exists o. apply (in_w_steps s o u U). apply (O o u U). exact K. }
  assert (RG : forall o, q_rl s = Some o -> exists j, fstep s j OGo <> None).
  { intros o K. pose proof (HE o (or_intror K)) as L. apply nth_error_Some in L. destruct (nth_error (q_th s) o) as [u|] eqn:U; [|contradiction].
    exists o. apply (in_r_steps s o u U). apply (O o u U). exact K. }
  destruct (t_pc t) eqn:PC; try contradiction; try (exists i; unfold fstep; rewrite N, PC; discriminate).
  - destruct (q_wl s) as [o|] eqn:W; [exact (WG o eq_refl)|]. exists i. unfold fstep. rewrite N, PC, W. discriminate.
  - destruct (q_wl s) as [o|] eqn:W; [exact (WG o eq_refl)|]. exists i. unfold fstep. rewrite N, PC, W. discriminate.
  - destruct (q_rl s) as [o|] eqn:W; [exact (RG o eq_refl)|]. exists i. unfold fstep. rewrite N, PC, W. discriminate.
Qed.
Print Assumptions C33_no_deadlock.

(** ** a pass of the consumer takes everything *)
Definition others_idle (r : nat) (s : fqs) : Prop := forall i t, i <> r -> nth_error (q_th s) i = Some t -> t_pc t = FIdle.
Definition rest (p : fpc) (d : nat) : nat :=
  match p with
  | MChk _ => d + 20 | M1 _ => d + 19 | M2 _ => d + 18 | M3 _ => d + 17 | M4 _ => d + 16 | M5 _ => d + 15 | MUnl _ => d + 14
  | DWait _ => d + 13 | D0 _ => d + 12 | DLoop _ _ => d + 3 | DCall _ _ _ => d + 2 | DFree _ _ _ => d + 1 | DHead _ _ => d + 0
  | _ => 0
  end.
(** the write list has been moved *)
Definition passed (p : fpc) (s : fqs) : Prop :=
  match p with
  | MUnl _ | DWait _ | D0 _ | DLoop _ _ | DCall _ _ _ | DFree _ _ _ | DHead _ _ => q_wnums s = 0
  | MChk _ | M1 _ | M2 _ | M3 _ | M4 _ | M5 _ => True
  | DUnl => q_rhead s = lastn s
  | _ => False
  end.
Lemma one_pass : forall r d s t, finv s -> held s -> others_idle r s -> nth_error (q_th s) r = Some t -> passed (t_pc t) s -> (rest (t_pc t) (4 * (lastn s - q_rhead s)) < d)%nat ->
  exists k ss, fstates s (repeat (r, OGo) k) = Some ss /\ Forall (fun t' => t_pc t' = FIdle) (q_th (last ss s)) /\
    map t_calls (q_th (last ss s)) = map t_calls (q_th s) /\ q_rhead (last ss s) = lastn (last ss s) /\ finv (last ss s).
Proof.
  intros r d. induction d as [|d IH]; intros s t I HE O N P L; [lia|].
  pose proof I as (I1 & I2 & I3 & I4 & I5). destruct (I2 r t N) as [OW OR].
  (* locks are free unless held by r *)
  assert (GO : forall s' p, fstep s r OGo = Some s' -> q_th s' = set_ft (q_th s) r (mkft p (t_calls t)) -> passed p s' ->
    (rest p (4 * (lastn s' - q_rhead s')) < d)%nat ->
    exists k ss, fstates s (repeat (r, OGo) k) = Some ss /\ Forall (fun t' => t_pc t' = FIdle) (q_th (last ss s)) /\
    map t_calls (q_th (last ss s)) = map t_calls (q_th s) /\ q_rhead (last ss s) = lastn (last ss s) /\ finv (last ss s)).
  { intros s' p ST TH PA LT. destruct (IH s' (mkft p (t_calls t))) as (k & ss & S1 & S2 & S3 & S4 & S5).
    - exact (fstep_inv _ _ _ _ I ST).
    - exact (held_step s (r, OGo) s' HE Logic.I ST).
    - intros i u NE U. rewrite TH, nth_set_ft in U. replace (Nat.eqb i r) with false in U by (symmetry; apply Nat.eqb_neq; exact NE). exact (O i u NE U).
    - rewrite TH, nth_set_ft, Nat.eqb_refl, N. reflexivity.
    - exact PA.
    - exact LT.
    - exists (S k), (s :: ss). cbn [repeat fstates fst snd]. rewrite ST, S1. split; [reflexivity|].
      assert (LD : last (s :: ss) s = last ss s').
      { destruct ss as [|x ss]; [destruct k; cbn [repeat fstates fst snd] in S1; [discriminate S1|destruct (fstep s' r OGo) as [q|]; [destruct (fstates q _)|]; discriminate S1]|].
        change (last (s :: x :: ss) s) with (last (x :: ss) s). generalize x as y, s as a, s' as b. clear. induction ss as [|z ss IH]; intros; [reflexivity|apply (IH z)]. }
      rewrite LD. split; [exact S2|]. split; [|split; [exact S4|exact S5]]. rewrite S3, TH. clear - N. revert r N. generalize (q_th s) as l.
      induction l as [|x l IH]; intros [|r] N; cbn in *; try discriminate; [injection N as ->; reflexivity|rewrite IH by exact N; reflexivity]. }
  assert (NOW : in_w (t_pc t) = false -> q_wl s = None).
  { intros F. destruct (q_wl s) as [o|] eqn:Q; [|reflexivity]. pose proof (HE o (or_introl Q)) as B. apply nth_error_Some in B.
    destruct (nth_error (q_th s) o) as [u|] eqn:U; [|contradiction].
    destruct (I2 o u U) as [[_ X] _]. specialize (X Q). destruct (Nat.eq_dec o r) as [->|NE]; [rewrite N in U; injection U as ->; congruence|].
    rewrite (O o u NE U) in X. discriminate X. }
  assert (NOR : in_r (t_pc t) = false -> q_rl s = None).
  { intros F. destruct (q_rl s) as [o|] eqn:Q; [|reflexivity]. pose proof (HE o (or_intror Q)) as B. apply nth_error_Some in B.
    destruct (nth_error (q_th s) o) as [u|] eqn:U; [|contradiction].
    destruct (I2 o u U) as [_ [_ X]]. specialize (X Q). destruct (Nat.eq_dec o r) as [->|NE]; [rewrite N in U; injection U as ->; congruence|].
    rewrite (O o u NE U) in X. discriminate X. }
  assert (WN : in_w (t_pc t) = false -> wpart FIdle s) by (intros F; rewrite (NOW F) in I3; exact I3).
  unfold passed in P. destruct (t_pc t) as [|m|m|a| | | |d0|d0|d0|d0|d0|d0|d0|d0|d0|d0 a|d0 a x|d0 a x|d0 x|] eqn:PC; try contradiction.
  - (* MChk *) apply proj1 in OW. specialize (OW eq_refl). rewrite OW in I3. cbn [phase] in I3. rewrite N, PC in I3. cbn [wpart] in I3.
    destruct I3 as (b & W1 & W2 & W3 & W4 & W5 & _).
    apply (GO (to s r t (if q_wnums s <? 1 then MUnl d0 else M1 d0)) (if q_wnums s <? 1 then MUnl d0 else M1 d0)); [unfold fstep; rewrite N, PC; reflexivity|reflexivity| |].
    + destruct (q_wnums s <? 1) eqn:Q; cbn [passed to q_wnums]; [lia|exact Logic.I].
    + unfold lastn in *. unf. destruct (q_wnums s <? 1); cbn [rest] in *; lia.
  - (* M1 *) eapply GO; [unfold fstep; rewrite N, PC; reflexivity|reflexivity|exact Logic.I|]. unfold lastn in *. unf. cbn [rest] in *. lia.
  - eapply GO; [unfold fstep; rewrite N, PC; reflexivity|reflexivity|exact Logic.I|]. unfold lastn in *. unf. cbn [rest] in *. lia.
  - eapply GO; [unfold fstep; rewrite N, PC; reflexivity|reflexivity|exact Logic.I|]. unfold lastn in *. unf. cbn [rest] in *. lia.
  - eapply GO; [unfold fstep; rewrite N, PC; reflexivity|reflexivity|exact Logic.I|]. unfold lastn in *. unf. cbn [rest] in *. lia.
  - (* M5 *) eapply GO; [unfold fstep; rewrite N, PC; reflexivity|reflexivity|reflexivity|]. unfold lastn in *. unf. cbn [rest] in *. lia.
  - (* MUnl *) eapply GO; [unfold fstep; rewrite N, PC; reflexivity|reflexivity|exact P|]. unfold lastn in *. unf. cbn [rest] in *. lia.
  - (* DWait *) specialize (NOR eq_refl).
    eapply GO; [unfold fstep; rewrite N, PC, NOR; reflexivity|reflexivity|exact P|]. unfold lastn in *. unf. cbn [rest] in *. lia.
  - (* D0 *) eapply GO; [unfold fstep; rewrite N, PC; reflexivity|reflexivity|exact P|]. unfold lastn in *. unf. cbn [rest] in *. lia.
  - (* DLoop *) apply proj1 in OR. specialize (OR eq_refl). rewrite OR in I4. cbn [phase] in I4. rewrite N, PC in I4. destruct I4 as (R1 & R2 & R3 & R4).
    specialize (WN eq_refl). cbn [wpart] in WN. destruct WN as (b & W1 & W2 & W3 & W4 & W5 & _).
    apply (GO (to (touch s a) r t (match q_next s a with None => DUnl | Some x => DCall d0 a x end)) (match q_next s a with None => DUnl | Some x => DCall d0 a x end));
      [unfold fstep; rewrite N, PC; reflexivity|reflexivity| |].
    + destruct (q_next s a) as [x|] eqn:NX; cbn [passed]; [exact P|]. unfold lastn in *. unf. destruct W1 as ((W1a & W1b) & W1c & _). rewrite R4 in NX.
      destruct (Nat.eq_dec (q_rhead s) b) as [Q|Q]; [unfold lastn in *; lia|]. rewrite W1c in NX by (unfold lastn in *; lia). discriminate NX.
    + unfold lastn in *. unf. destruct (q_next s a); cbn [rest] in *; lia.
  - (* DCall *) eapply GO; [unfold fstep; rewrite N, PC; reflexivity|reflexivity|exact P|]. unfold lastn in *. unf. cbn [rest] in *. lia.
  - (* DFree *) eapply GO; [unfold fstep; rewrite N, PC; reflexivity|reflexivity|exact P|]. unfold lastn in *. unf. cbn [rest] in *. lia.
  - (* DHead *) apply proj1 in OR. specialize (OR eq_refl). rewrite OR in I4. cbn [phase] in I4. rewrite N, PC in I4. destruct I4 as (R1 & R2 & R3 & R4 & R5).
    destruct (some_end _ _ I3) as [e RC]. destruct (next_of_head _ _ _ RC R5) as [LE _]. destruct RC as ((_ & RC) & _).
    eapply GO; [unfold fstep; rewrite N, PC; reflexivity|reflexivity|exact P|]. unfold lastn in *. unf. cbn [rest] in *. lia.
  - (* DUnl *) pose proof I as I0. set (s' := to (with_rl s None) r t FIdle).
    assert (ST : fstep s r OGo = Some s') by (unfold fstep; rewrite N, PC; reflexivity).
    exists 1%nat, [s; s']. cbn [repeat fstates fst snd]. rewrite ST. split; [reflexivity|]. cbn [last].
    split; [|split; [|split; [exact P|exact (fstep_inv _ _ _ _ I ST)]]].
    + apply Forall_forall. intros u U. apply In_nth_error in U. destruct U as [i U]. unfold s' in U. unf. rewrite nth_set_ft in U.
      destruct (Nat.eqb i r) eqn:Q; [rewrite N in U; injection U as <-; reflexivity|]. apply Nat.eqb_neq in Q. exact (O i u Q U).
    + unfold s'. unf. clear - N. revert r N. generalize (q_th s) as l.
      induction l as [|x l IH]; intros [|r] N; cbn in *; try discriminate; [injection N as ->; reflexivity|rewrite IH by exact N; reflexivity].
Qed.

(** Whatever happened before: when no thread is inside a call, one pass of a consumer takes out
    everything that has been pushed. *)
Theorem C33_pass_takes_all : forall n l ss s r, fstates (fstart n) l = Some ss -> In s ss ->
  Forall (fun t => t_pc t = FIdle) (q_th s) -> (r < n)%nat ->
  exists k ss', fstates s ((r, ORead) :: repeat (r, OGo) k) = Some ss' /\
    Forall (fun t => t_pc t = FIdle) (q_th (last ss' s)) /\ fv_calls (fsee (last ss' s)) = fv_calls (fsee s) /\ all_taken (fsee (last ss' s)).
Proof.
  intros n l ss s r E SI ID RN. pose proof (states_inv n l ss E) as I. rewrite Forall_forall in I. specialize (I s SI).
  assert (HE : Forall held ss).
  { apply (states_ind held (fun _ => True) held_step) with (l := l) (s := fstart n); auto. intros o [K|K]; discriminate K. }
  assert (LN : Forall (fun s => length (q_th s) = n) ss).
  { apply (states_ind (fun s => length (q_th s) = n) (fun _ => True)) with (l := l) (s := fstart n); auto; [|apply repeat_length].
    intros x [i o] x' H _ F. cbn [fst snd] in F. unfold fstep in F. destruct (nth_error (q_th x) i) as [t|]; [|discriminate F].
    destruct (t_pc t); destruct o; try discriminate F; repeat match type of F with (match ?c with _ => _ end) = _ => destruct c; try discriminate F end;
      injection F as <-; cbn; rewrite length_set_ft; exact H. }
  rewrite Forall_forall in HE, LN. specialize (HE s SI). specialize (LN s SI).
  assert (exists t, nth_error (q_th s) r = Some t) as [t N].
  { destruct (nth_error (q_th s) r) as [t|] eqn:Q; [exists t; reflexivity|]. apply nth_error_None in Q. lia. }
  assert (IDT : forall i u, nth_error (q_th s) i = Some u -> t_pc u = FIdle) by (intros i u U; rewrite Forall_forall in ID; apply ID, (nth_error_In _ _ U)).
  pose proof I as (_ & O & _).
  assert (WL : q_wl s = None).
  { destruct (q_wl s) as [o|] eqn:Q; [|reflexivity]. pose proof (HE o (or_introl Q)) as B. apply nth_error_Some in B.
    destruct (nth_error (q_th s) o) as [u|] eqn:U; [|contradiction]. destruct (O o u U) as [[_ X] _]. specialize (X Q). rewrite (IDT o u U) in X. discriminate X. }
  set (s1 := to (with_wl s (Some r)) r t (MChk true)).
  assert (ST : fstep s r ORead = Some s1) by (unfold fstep; rewrite N, (IDT r t N), WL; reflexivity).
  destruct (one_pass r (S (rest (MChk true) (4 * (lastn s1 - q_rhead s1)))) s1 (mkft (MChk true) (t_calls t))) as (k & ss' & S1 & S2 & S3 & S4 & S5).
  - exact (fstep_inv _ _ _ _ I ST).
  - exact (held_step s (r, ORead) s1 HE Logic.I ST).
  - intros i u NE U. unfold s1 in U. unf. rewrite nth_set_ft in U. replace (Nat.eqb i r) with false in U by (symmetry; apply Nat.eqb_neq; exact NE). exact (IDT i u U).
  - unfold s1. unf. rewrite nth_set_ft, Nat.eqb_refl, N. reflexivity.
  - exact Logic.I.
  - cbn [t_pc]. lia.
  - exists k, (s :: ss'). change (fstates s ((r, ORead) :: repeat (r, OGo) k)) with
      (match fstep s r ORead with None => None | Some s' => match fstates s' (repeat (r, OGo) k) with Some r0 => Some (s :: r0) | None => None end end).
    rewrite ST, S1. split; [reflexivity|].
    assert (LD : last (s :: ss') s = last ss' s1).
    { destruct ss' as [|x ss']; [destruct k; cbn [repeat fstates fst snd] in S1; [discriminate S1|destruct (fstep s1 r OGo) as [q|]; [destruct (fstates q _)|]; discriminate S1]|].
      change (last (s :: x :: ss') s) with (last (x :: ss') s). generalize x as y, s as a, s1 as b. clear. induction ss' as [|z ss IH]; intros; [reflexivity|apply (IH z)]. }
    rewrite LD. split; [exact S2|]. split.
    + unfold fsee. cbn [fv_calls]. rewrite S3. unfold s1. unf. clear - N. revert r N. generalize (q_th s) as l.
      induction l as [|x l IH]; intros [|r] N; cbn in *; try discriminate; [injection N as ->; reflexivity|rewrite IH by exact N; reflexivity].
    + set (z := last ss' s1) in *. clearbody z. clear - S2 S4 S5. destruct S5 as (_ & Z2 & _ & (Z4 & _ & Z5 & Z6) & _ & Z7).
      intros i calls H. cbn [fsee fv_calls fv_taken] in *. rewrite nth_error_map in H. destruct (nth_error (q_th z) i) as [u|] eqn:U; [|discriminate H]. injection H as <-.
      rewrite Forall_forall in S2. rewrite (Z7 i u U), (S2 u (nth_error_In _ _ U)). cbn [pending]. rewrite app_nil_r, taken_by_of, Z5.
      assert (PH : phase (q_th z) (q_rl z) = FIdle).
      { unfold phase. destruct (q_rl z) as [o|]; [|reflexivity]. destruct (nth_error (q_th z) o) as [v|] eqn:V; [|reflexivity]. apply (S2 v (nth_error_In _ _ V)). }
      rewrite PH. rewrite S4. unfold lastn. replace (length (q_cells z) + 1 - 1)%nat with (length (q_cells z)) by lia. rewrite firstn_all. reflexivity.
Qed.
Print Assumptions C33_pass_takes_all.

(** two producers, a reader that moves and takes out while they push, a clear in between *)
Definition go (i n : nat) : list (nat * fop) := repeat (i, OGo) n.
Definition ex_run : list (nat * fop) :=
  [(0%nat, OPush 10)] ++ [(1%nat, OPush 20)] ++ go 1 5 ++ [(2%nat, ORead)] ++ go 2 8 ++ go 0 2 ++ go 2 4 ++ go 0 3 ++ [(0%nat, OPush 11)] ++ go 2 3 ++
  go 0 5 ++ [(1%nat, OPush 21)] ++ go 1 1 ++ [(2%nat, ORead)] ++ go 1 4 ++ go 2 4.
Example C33_ok : exists ss, fstates (fstart 3) ex_run = Some ss /\
  let s := last ss (fstart 3) in map t_calls (q_th s) = [[10; 11]; [20; 21]; []] /\ q_taken s = [(1%nat, 20, true)] /\
  Forall (fun t => t_pc t = FIdle) (q_th s) /\ q_wnums s = 3.
Proof. eexists. split; [vm_compute; reflexivity|]. vm_compute. repeat (split || constructor). Qed.
Example C33_clear_ok : exists ss, fstates (fstart 2) ([(0%nat, OPush 1)] ++ go 0 5 ++ [(1%nat, OClear)] ++ go 1 16 ++ [(0%nat, OPush 2)] ++ go 0 5 ++ [(1%nat, ORead)] ++ go 1 15) = Some ss /\
  let s := last ss (fstart 2) in q_taken s = [(0%nat, 1, false); (0%nat, 2, true)] /\ q_freed s = [2%nat; 1%nat].
Proof. eexists. split; [vm_compute; reflexivity|]. vm_compute. auto. Qed.
