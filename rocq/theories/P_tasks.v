(** C71: worker threads run every task once, the tasks of one key in the order they were added, and waiting returns only when
    everything that was added before is done. *)
From Verif Require Import Base S_tasks M_tasks L_tasks.

(** ** one thread with two lists *)
(** in all interleavings from a created queue: tasks are run in the order they were added, each once; each is freed once,
    after it was run *)
Theorem C71_once : forall (wfirst : bool) (l : list tact) (s : tq),
  ~ In TDestroy l -> trun wfirst l tready = Some s ->
  begins (q_ran s) (q_added s) /\ begins (q_freed s) (q_ran s).
Proof. intros wf l s N H. apply tinv_once. exact (run_inv wf l tready s tinv_start N H). Qed.
(** whenever no caller is inside add, the thread alone runs everything *)
Theorem C71_progress : forall (wfirst : bool) (l : list tact) (s : tq),
  ~ In TDestroy l -> trun wfirst l tready = Some s -> q_add s = PNone ->
  exists m, forall n, (m <= n)%nat -> exists s', trun wfirst (repeat TWork n) s = Some s' /\ q_ran s' = q_added s.
Proof.
  intros wf l s N H A. destruct (works_all s (run_inv wf l tready s tinv_start N H) A) as (m & E).
  exists m. intros n Hn. exists (works n s). split; [apply trun_works|now apply E].
Qed.
(** waiting: if wnums is read before rnums, everything added before the waiting began was run and freed when it returns.
    Partial: C leaves the order of the two reads open, see C71_wait_refuted *)
Theorem C71_wait_partial : forall (l : list tact) (s : tq),
  ~ In TDestroy l -> trun true l tready = Some s -> q_wait s = QDone ->
  begins (q_must s) (q_freed s) /\ begins (q_must s) (q_added s).
Proof.
  intros l s N H D. assert (W0 : waits tready) by (split; [apply begins_refl|exact Logic.I]).
  pose proof (run_inv true l tready s tinv_start N H) as I. destruct (run_waits l tready s tinv_start W0 N H) as [W1 W2]. rewrite D in W2.
  split; [|exact W1]. destruct W1 as [c E]. destruct (tinv_once s I) as [[a A] [b B]].
  assert (F : q_added s = q_freed s ++ b ++ a) by (rewrite A, B; now rewrite app_assoc).
  rewrite E in F. clear - F W2. revert F W2. generalize (b ++ a) as d. generalize (q_freed s) as f. generalize (q_must s) as m.
  induction m as [|x m IH]; intros f d F W.
  - now exists f.
  - destruct f as [|y f]. { rewrite len_cons in W. change (len (@nil Z)) with 0 in W. pose proof (len_pos m). lia. }
    cbn in F. injection F as -> F. rewrite !len_cons in W. destruct (IH f d F ltac:(lia)) as [e Ee]. exists e. now rewrite Ee.
Qed.
Definition do_add (t : Z) : list tact := [TAdd t; TNext; TNext; TNext].
Definition view (o : option tq) : option (list Z * list Z * list Z * qpc) :=
  match o with Some s => Some (q_added s, q_ran s, q_freed s, q_wait s) | None => None end.
Example C71_case :
  view (trun true (do_add 7 ++ [TWait; TWait] ++ repeat TWork 9 ++ do_add 8 ++ [TWait; TWait] ++ repeat TWork 30 ++ [TWait; TWait; TWait]) tready)
    = Some ([7; 8], [7; 8], [7; 8], QDone) /\
  view (trun true (do_add 7 ++ [TWait; TWait] ++ repeat TWork 9 ++ [TWait]) tready) = Some ([7], [7], [7], QStart) /\
  begins [7] [7; 8].
Proof. split; [vm_compute; reflexivity|split; [vm_compute; reflexivity|exists [8]; reflexivity]]. Qed.
(** rnums is read first, as compilers do with rnums + wnums: the waiting can return while a task has not been run *)
Theorem C71_wait_refuted : exists (l : list tact) (s : tq),
  ~ In TDestroy l /\ trun false l tready = Some s /\ q_wait s = QDone /\ q_must s = [7] /\ q_ran s = [].
Proof.
  exists (do_add 7 ++ [TWait; TWait] ++ repeat TWork 7 ++ [TWait]).
  exists (mktq [] 0 [7] 1 false true (WLoop [7]) PNone QDone [7] [] [] [7]).
  split; [cbn; intuition discriminate|]. split; [vm_compute; reflexivity|]. repeat split.
Qed.
(** .. and destroying the queue then frees a task twice *)
Theorem C71_destroy_refuted : exists (l : list tact) (s : tq),
  trun false l tready = Some s /\ q_added s = [7] /\ q_freed s = [7; 7].
Proof.
  exists (do_add 7 ++ [TWait; TWait] ++ repeat TWork 7 ++ [TWait; TDestroy; TWork; TWork]).
  exists (mktq [] 0 [7] 1 false true (WDrop []) PNone QNone [7] [7] [7; 7] [7]).
  split; [vm_compute; reflexivity|]. repeat split.
Qed.
(** the lock is initialised after the thread has been started: if the thread holds it then, the first task can be lost *)
Theorem C71_init_refuted : exists (l : list tact) (s : tq),
  ~ In TDestroy l /\ trun true l tcreate = Some s /\ q_added s = [7] /\ q_add s = PNone /\
  forall n s', trun true (repeat TWork n) s = Some s' -> q_ran s' = [].
Proof.
  exists (repeat TWork 4 ++ [TInit] ++ do_add 7 ++ repeat TWork 3).
  exists (mktq [] 0 [] 0 false true WSleep PNone QNone [7] [] [] []).
  split; [cbn; intuition discriminate|]. split; [vm_compute; reflexivity|]. split; [reflexivity|split; [reflexivity|]].
  intros n s'. rewrite trun_works. intros [= <-]. rewrite no_task_works; [reflexivity|]. repeat split.
Qed.

(** ** a pool of threads *)
(** in all interleavings of any number of threads, whatever tasks the tasks add: no null pointer is used, the tasks of a key
    are run in the order they were added, each once, one after the other *)
Theorem C71_pool : forall (spawn : Z -> list (list Z * Z)) (nums : Z) (l : list mact) (k : list Z),
  exists p, mrun spawn l (mcreate nums) = Some p /\
    begins (of_key k (m_ran p)) (of_key k (m_added p)) /\ begins (of_key k (m_done p)) (of_key k (m_ran p)) /\
    (length (of_key k (m_ran p)) <= S (length (of_key k (m_done p))))%nat.
Proof.
  intros spawn nums l k. destruct (mrun_inv _ spawn l (mcreate nums) (mcreate_inv nums)) as (p & E & I).
  exists p. split; [exact E|]. destruct (minv_key _ p k I) as [A B]. split; [exact A|]. split; [exact B|].
  destruct I as (N & L & G & _). set (n := Z.to_nat (Z.max 1 (Z.min nums 64))) in *. pose proof (slot_lt n k N) as H.
  destruct (nth_error (m_ws p) (slot n k)) as [w|] eqn:EW. 2: { apply nth_error_None in EW. lia. }
  destruct (G _ _ EW) as (_ & G2 & _). rewrite <- (of_key_sel n k (m_ran p)), G2, of_key_app, of_key_sel, app_length.
  assert (D : (length (of_key k (doing (m_pc w))) <= 1)%nat).
  { destruct (m_pc w) as [| | |[k1 t]|[k1 t]| |]; unfold of_key; cbn [doing filter fst map length]; try lia. destruct (list_eq_dec Z.eq_dec k1 k); cbn; lia. }
  lia.
Qed.
(** the thread of a key alone gets its tasks done, as long as the threads are not asked to end *)
Theorem C71_pool_progress : forall (nums : Z) (l : list mact) (p : mpool) (k : list Z),
  (forall i, ~ In (MExit i) l) -> mrun nospawn l (mcreate nums) = Some p ->
  exists i m, forall n, (m <= n)%nat -> exists p', mrun nospawn (repeat (MWork i) n) p = Some p' /\ of_key k (m_done p') = of_key k (m_added p).
Proof.
  intros nums l p k NX H. destruct (mrun_inv _ nospawn l (mcreate nums) (mcreate_inv nums)) as (p1 & E & I). rewrite E in H. injection H as ->.
  assert (C : calm p).
  { clear I. revert NX E. assert (C0 : calm (mcreate nums)) by (intros i w Hw; apply nth_error_repeat_in in Hw; subst w; split; [reflexivity|discriminate]).
    revert C0. generalize (mcreate nums) as p0. induction l as [|a l IH]; cbn; intros p0 C0 NX E; [now injection E as <-|].
    destruct (mstep nospawn a p0) as [p1|] eqn:E1; [|discriminate]. apply (IH p1); [| intros i Hi; apply (NX i); now right|exact E].
    assert (SW : forall j w0 w1, nth_error (m_ws p0) j = Some w0 -> m_exit w1 = false -> m_pc w1 <> MStop ->
       forall i w, nth_error (set_worker (m_ws p0) j w1) i = Some w -> m_exit w = false /\ m_pc w <> MStop).
    { intros j w0 w1 H0 X1 X2 i w Hw. rewrite set_worker_get in Hw by (apply nth_error_Some; congruence).
      destruct (Nat.eqb i j); [injection Hw as <-; auto|exact (C0 i w Hw)]. }
    destruct a as [j|k1 t| |j]; cbn [mstep] in E1.
    - unfold mwork in E1. destruct (nth_error (m_ws p0) j) as [w0|] eqn:E0; [|injection E1 as <-; exact C0]. destruct (C0 _ _ E0) as [X0 X1].
      destruct (m_pc w0); [| |destruct (m_tasks w0) eqn:ET; [discriminate|]| | | |]; injection E1 as <-; intros i w; cbn [m_ws with_worker madds nospawn];
        try (apply (SW j w0); [exact E0|exact X0|try discriminate]); try congruence.
      + rewrite X0. discriminate.
      + cbn. destruct (0 <? _); discriminate.
    - injection E1 as <-. unfold madd. destruct (nth_error (m_ws p0) _) as [w0|] eqn:E0; [|exact C0]. destruct (C0 _ _ E0) as [X0 X1].
      intros i w. cbn [m_ws]. apply (SW _ w0); [exact E0|exact X0|exact X1].
    - injection E1 as <-. unfold mwait. destruct (m_scan p0) as [j|]; [destruct (nth_error (m_ws p0) j) as [w|]; [destruct (0 <? _)|]|destruct (m_over p0)]; exact C0.
    - exfalso. apply (NX j). now left. }
  destruct (key_done _ p k I C) as (i & m & K). exists i, m. intros n Hn. destruct (K n Hn) as (p' & K1 & K2 & _). exists p'. auto.
Qed.
(** sis_mul_worker_cxt_wait returns only when everything added before it was called is done *)
Theorem C71_pool_wait : forall (spawn : Z -> list (list Z * Z)) (nums : Z) (l : list mact) (p : mpool) (k : list Z),
  mrun spawn l (mcreate nums) = Some p -> m_over p = true -> m_scan p = None ->
  begins (of_key k (m_must p)) (of_key k (m_done p)) /\ begins (m_must p) (m_added p).
Proof.
  intros spawn nums l p k H O SC. destruct (mrun_inv _ spawn l (mcreate nums) (mcreate_inv nums)) as (p1 & E & I). rewrite E in H. injection H as ->.
  destruct I as (N & L & G & S1 & S2). rewrite SC in S2. split; [|exact S1]. apply (of_key_begins (Z.to_nat (Z.max 1 (Z.min nums 64)))).
  apply S2; [exact O|]. now apply slot_lt.
Qed.
Definition pview (o : option mpool) : option (list (list Z * Z) * list (list Z * Z) * list (list Z * Z) * bool) :=
  match o with Some p => Some (m_added p, m_ran p, m_done p, m_over p) | None => None end.
Example C71_pool_case :
  get_hash [65; 66] 3 = 2 /\ get_hash [67] 3 = 1 /\
  pview (mrun nospawn ([MAdd [65; 66] 1; MAdd [67] 2; MAdd [65; 66] 3; MWait; MWait; MWait] ++ repeat (MWork 2) 9 ++ repeat (MWork 1) 9 ++ repeat MWait 6) (mcreate 3))
    = Some ([([65; 66], 1); ([67], 2); ([65; 66], 3)], [([65; 66], 1); ([65; 66], 3); ([67], 2)], [([65; 66], 1); ([65; 66], 3); ([67], 2)], true) /\
  of_key [65; 66] [([65; 66], 1); ([65; 66], 3); ([67], 2)] = [1; 3].
Proof. repeat split; vm_compute; reflexivity. Qed.
(** .. but not what was added by a task meanwhile *)
Theorem C71_spawn_refuted : exists (spawn : Z -> list (list Z * Z)) (l : list mact) (p : mpool),
  mrun spawn l (mcreate 2) = Some p /\ m_over p = true /\ m_added p = [([65], 1); ([66], 2)] /\ m_ran p = [([65], 1)].
Proof.
  exists (fun t => if t =? 1 then [([66], 2)] else []), ([MAdd [65] 1; MWait; MWait] ++ repeat (MWork 1) 5 ++ [MWait; MWait]).
  exists (mkmp [mkmw [([66], 2)] false MTop; mkmw [] false MCheck] [([65], 1); ([66], 2)] [([65], 1)] [([65], 1)] None true [([65], 1)]).
  split; [vm_compute; reflexivity|]. repeat split.
Qed.
(** a thread that is asked to end while it sleeps leaves its tasks undone *)
Theorem C71_stop_refuted : exists (l : list mact) (p : mpool),
  mrun nospawn l (mcreate 1) = Some p /\ of_key [65] (m_added p) = [5] /\ m_ran p = [] /\ map m_pc (m_ws p) = [MStop] /\
  forall i, mwork nospawn p i = Some p.
Proof.
  exists [MWork 0; MWork 0; MAdd [65] 5; MExit 0; MWork 0; MWork 0].
  exists (mkmp [mkmw [([65], 5)] true MStop] [([65], 5)] [] [] None false []).
  split; [vm_compute; reflexivity|]. split; [reflexivity|split; [reflexivity|split; [reflexivity|]]]. intros [|[|i]]; reflexivity.
Qed.
Print Assumptions C71_once.
Print Assumptions C71_progress.
Print Assumptions C71_wait_partial.
Print Assumptions C71_wait_refuted.
Print Assumptions C71_destroy_refuted.
Print Assumptions C71_init_refuted.
Print Assumptions C71_pool.
Print Assumptions C71_pool_progress.
Print Assumptions C71_pool_wait.
Print Assumptions C71_spawn_refuted.
Print Assumptions C71_stop_refuted.
