(** Lemmas for worker threads (C71). *)
From Verif Require Import Base S_tasks M_tasks.
From Coq Require Import ZifyBool ZifyNat.
Arguments Z.ltb : simpl never.
Arguments Z.leb : simpl never.
Arguments Z.add : simpl never.
Arguments Z.sub : simpl never.
Arguments Z.mul : simpl never.
Arguments Z.of_nat : simpl never.

Definition len {A} (l : list A) : Z := Z.of_nat (length l).
Lemma len_app {A} (a b : list A) : len (a ++ b) = len a + len b.
Proof. unfold len. rewrite app_length. lia. Qed.
Lemma len_cons {A} (x : A) l : len (x :: l) = 1 + len l.
Proof. unfold len. cbn [length]. lia. Qed.
Lemma len_nil {A} : len (@nil A) = 0.
Proof. reflexivity. Qed.
Lemma len_pos {A} (l : list A) : 0 <= len l.
Proof. unfold len. lia. Qed.
Lemma len_zero {A} (l : list A) : len l = 0 -> l = [].
Proof. destruct l; [reflexivity|]. rewrite len_cons. pose proof (len_pos l). lia. Qed.
Lemma begins_refl {A} (a : list A) : begins a a.
Proof. exists []. now rewrite app_nil_r. Qed.
Lemma begins_app {A} (a b c : list A) : begins a b -> begins a (b ++ c).
Proof. intros [d E]. exists (d ++ c). now rewrite E, app_assoc. Qed.

(** ** one thread with two lists *)
Definition in_lock (p : wpc) : bool := match p with WNums | WList | WZero | WNull | WFree => true | _ => false end.
Definition linking (a : ppc) : Z := match a with PLink _ => 1 | _ => 0 end.
Definition inb (s : tq) : Z :=
  match q_pc s with
  | WZero | WNull | WFree => len (q_rl s)
  | WLoop todo | WDrop todo => len todo
  | WRun _ todo => 1 + len todo
  | _ => 0
  end.
Definition place (s : tq) : Prop :=
  match q_pc s with
  | WCheck | WTry | WSleep | WNums => q_rn s = 0 /\ q_rl s = [] /\ q_wn s = len (q_wl s) + linking (q_add s) /\ q_added s = q_ran s ++ q_wl s /\ q_ran s = q_freed s
  | WList => q_rn s = len (q_wl s) /\ q_rl s = [] /\ q_wn s = len (q_wl s) /\ q_added s = q_ran s ++ q_wl s /\ q_ran s = q_freed s
  | WZero => q_rn s = len (q_rl s) /\ q_rl s = q_wl s /\ q_wn s = len (q_wl s) /\ q_added s = q_ran s ++ q_rl s /\ q_ran s = q_freed s
  | WNull => q_rn s = len (q_rl s) /\ q_rl s = q_wl s /\ q_wn s = 0 /\ q_added s = q_ran s ++ q_rl s /\ q_ran s = q_freed s
  | WFree => q_rn s = len (q_rl s) /\ q_wl s = [] /\ q_wn s = 0 /\ q_added s = q_ran s ++ q_rl s /\ q_ran s = q_freed s
  | WLoop todo => q_rn s = len todo /\ q_wn s = len (q_wl s) + linking (q_add s) /\ q_added s = q_ran s ++ todo ++ q_wl s /\ q_ran s = q_freed s
  | WRun t todo => q_rn s = 1 + len todo /\ q_wn s = len (q_wl s) + linking (q_add s) /\ q_added s = q_ran s ++ todo ++ q_wl s /\ q_ran s = q_freed s ++ [t]
  | WDrop todo => q_rn s = 1 + len todo /\ q_wn s = len (q_wl s) + linking (q_add s) /\ q_added s = q_ran s ++ todo ++ q_wl s /\ q_ran s = q_freed s
  | WEnd1 => q_rn s = 0 /\ q_wn s = len (q_wl s) + linking (q_add s) /\ q_added s = q_ran s ++ q_wl s /\ q_ran s = q_freed s
  | WEnd2 => q_rn s = 0 /\ q_rl s = [] /\ q_wn s = len (q_wl s) + linking (q_add s) /\ q_added s = q_ran s ++ q_wl s /\ q_ran s = q_freed s
  end.
Definition locks (s : tq) : Prop :=
  q_ready s = true /\
  if in_lock (q_pc s) then q_lock s = true /\ q_add s = PNone
  else q_lock s = match q_add s with PNone => false | _ => true end.
Definition tinv (s : tq) : Prop := locks s /\ place s.

Ltac ands := repeat match goal with H : _ /\ _ |- _ => destruct H end.
Ltac dinv s := destruct s as [wl wn rl rn lk rd pc ad wt added ran freed must]; cbn in *.

Lemma tinv_start : tinv tready.
Proof. repeat split. Qed.
Lemma work_inv s : tinv s -> tinv (work s).
Proof.
  intros [[R L] P]. unfold tinv, locks. dinv s. unfold work. cbn.
  destruct pc; cbn in *; repeat match goal with H : _ /\ _ |- _ => destruct H end; subst; cbn in *.
  - (* WCheck *) unfold place. cbn. repeat split; auto.
  - destruct ad; cbn; unfold place; cbn; repeat split; auto.
  - unfold place; cbn; repeat split; auto; lia.
  - repeat split; auto.
  - repeat split; auto.
  - repeat split; auto.
  - destruct (0 <? len rl) eqn:E; unfold place; cbn; pose proof (len_pos rl).
    + repeat split; auto. now rewrite app_nil_r.
    + assert (H0 : len rl = 0) by lia. apply len_zero in H0 as ->. repeat split; auto.
  - destruct todo as [|t todo]; unfold place; cbn in *; rewrite ?len_cons in *; repeat split; auto; rewrite <- ?app_assoc; auto.
  - unfold place; cbn; repeat split; auto.
  - unfold place; cbn; repeat split; auto. lia.
  - unfold place; cbn; repeat split; auto.
  - unfold place; cbn; repeat split; auto.
  - unfold place; cbn; repeat split; auto.
Qed.
Lemma step_inv wf a s s' : tinv s -> a <> TDestroy -> tstep wf a s = Some s' -> tinv s'.
Proof.
  intros I N H. destruct a; cbn [tstep] in H.
  - injection H as <-. now apply work_inv.
  - destruct I as [[R _] _]. rewrite R in H. discriminate.
  - destruct I as [[R L] P]. dinv s. subst rd. cbn in H. destruct lk; [discriminate|]. cbn in H. destruct ad; try discriminate. injection H as <-.
    unfold tinv, locks. unfold place in *; destruct pc; cbn in *; try (destruct L; discriminate); ands; repeat split; auto.
  - destruct I as [[R L] P]. dinv s. unfold add_next in H. destruct ad; cbn in H; try discriminate; injection H as <-;
      unfold tinv, locks; destruct pc; cbn in *; try (destruct L; discriminate); repeat match goal with H : _ /\ _ |- _ => destruct H end; subst; cbn in *;
      unfold place; cbn; repeat split; auto; rewrite ?len_app, ?len_cons, ?len_nil; try lia; rewrite <- ?app_assoc; auto.
  - destruct I as [[R L] P]. dinv s. unfold wait_next in H. destruct wt; cbn in H; try discriminate; injection H as <-; unfold tinv, locks, place in *; cbn in *; (split; [split; [exact R|exact L]|exact P]).
  - congruence.
Qed.
Lemma run_inv wf l : forall s s', tinv s -> ~ In TDestroy l -> trun wf l s = Some s' -> tinv s'.
Proof.
  induction l as [|a l IH]; cbn; intros s s' I N H.
  - now injection H as <-.
  - destruct (tstep wf a s) as [s1|] eqn:E; [|discriminate].
    apply (IH s1 s'); [| tauto | exact H]. apply (step_inv wf a s s1); [exact I| |exact E]. intros ->. apply N. now left.
Qed.
Lemma tinv_once s : tinv s -> begins (q_ran s) (q_added s) /\ begins (q_freed s) (q_ran s).
Proof.
  intros [_ P]. dinv s. unfold place in P. cbn in P.
  destruct pc; cbn in *; repeat match goal with H : _ /\ _ |- _ => destruct H end; subst; split; unfold begins;
    try (eexists; reflexivity); try (exists []; now rewrite app_nil_r); try (eexists; eassumption);
    try (eexists; first [rewrite H2 | rewrite H1 | rewrite H3]; reflexivity).
Qed.

(** *** waiting *)
Definition waits (s : tq) : Prop :=
  begins (q_must s) (q_added s) /\
  match q_wait s with
  | QRead v => 0 <= v /\ (v = 0 -> len (q_must s) <= len (q_freed s) + inb s)
  | QDone => len (q_must s) <= len (q_freed s)
  | _ => True
  end.
Lemma work_mono s : tinv s -> len (q_freed s) + inb s <= len (q_freed (work s)) + inb (work s) /\ len (q_freed s) <= len (q_freed (work s)) /\
  q_must (work s) = q_must s /\ q_added (work s) = q_added s /\ q_wait (work s) = q_wait s.
Proof.
  intros [[R L] P]. dinv s. unfold work, inb, place in *. cbn in *.
  destruct pc; cbn in *; ands; subst; change (0 <? 0) with false; cbn; try (pose proof (len_pos wl)); try (repeat split; lia).
  - destruct ad; cbn; repeat split; lia.
  - destruct (0 <? len rl) eqn:E; cbn; pose proof (len_pos rl); repeat split; lia.
  - destruct todo; cbn; rewrite ?len_cons, ?len_nil in *; repeat split; lia.
  - rewrite len_app, len_cons, len_nil. repeat split; lia.
Qed.
Lemma tinv_w0 s : tinv s -> 0 <= q_wn s /\ 0 <= q_rn s /\ (q_wn s = 0 -> len (q_added s) <= len (q_freed s) + inb s) /\ (q_rn s = 0 -> inb s = 0).
Proof.
  intros [[R L] P]. dinv s. unfold inb, place in *. cbn in *.
  assert (LL : 0 <= linking ad) by (destruct ad; cbn; lia). pose proof (len_pos wl). pose proof (len_pos rl).
  destruct pc as [| | | | | | |todo|t todo|todo| | |]; cbn in *; ands; subst; cbn in *;
    try (pose proof (len_pos todo)); rewrite ?len_app, ?len_cons, ?len_nil in *; repeat split; intros; rewrite ?len_app, ?len_cons, ?(@len_nil Z); try lia.
Qed.
Lemma step_waits a s s' : tinv s -> waits s -> a <> TDestroy -> tstep true a s = Some s' -> waits s'.
Proof.
  intros I W N H. destruct a; cbn [tstep] in H.
  - injection H as <-. destruct (work_mono s I) as (M1 & M2 & M3 & M4 & M5). destruct W as [W1 W2]. split; [now rewrite M3, M4|].
    rewrite M5, M3. destruct (q_wait s); auto; [|lia]. destruct W2 as [W2 W3]. split; [exact W2|]. intros E. specialize (W3 E). lia.
  - destruct I as [[R _] _]. rewrite R in H. discriminate.
  - destruct (q_ready s && negb (q_lock s)); [|discriminate]. destruct (q_add s); try discriminate. injection H as <-. exact W.
  - destruct W as [W1 W2]. dinv s. unfold add_next in H. destruct ad; cbn in H; try discriminate; injection H as <-; split; cbn; auto. now apply begins_app.
  - destruct W as [W1 W2]. destruct (tinv_w0 s I) as (A & B & C & D). assert (LM : len (q_must s) <= len (q_added s)).
    { destruct W1 as [c E]. rewrite E, len_app. pose proof (len_pos c). lia. }
    unfold wait_next in H. destruct (q_wait s) as [| |v|] eqn:EW; try discriminate; injection H as <-; unfold waits; cbn.
    + split; [apply begins_refl|auto].
    + split; [exact W1|]. split; [exact A|]. intros E. specialize (C E). change (inb (set_wait s (QRead (q_wn s)) (q_must s))) with (inb s). lia.
    + split; [exact W1|]. destruct (v + q_rn s <? 1) eqn:E; [|auto]. destruct W2 as [V W2]. assert (v = 0) by lia. assert (R0 : q_rn s = 0) by lia.
      specialize (W2 H). specialize (D R0). lia.
  - congruence.
Qed.
Lemma run_waits l : forall s s', tinv s -> waits s -> ~ In TDestroy l -> trun true l s = Some s' -> waits s'.
Proof.
  induction l as [|a l IH]; cbn; intros s s' I W N H.
  - now injection H as <-.
  - destruct (tstep true a s) as [s1|] eqn:E; [|discriminate].
    assert (Na : a <> TDestroy) by (intros ->; apply N; now left).
    apply (IH s1 s'); [now apply (step_inv true a s s1)|now apply (step_waits a s s1)|tauto|exact H].
Qed.

(** *** the thread gets everything done *)
Fixpoint works (n : nat) (s : tq) : tq := match n with O => s | S n' => works n' (work s) end.
Lemma works_add a b s : works (a + b) s = works b (works a s).
Proof. revert s. induction a as [|a IH]; cbn; intros s; [reflexivity|apply IH]. Qed.
Definition rest (s : tq) : Z :=
  30 * len (q_wl s) +
  match q_pc s with
  | WSleep => 13 | WCheck => 12 | WTry => 11 | WNums => 10 | WList => 9
  | WZero => 18 - 27 * len (q_rl s) | WNull => 17 - 27 * len (q_rl s) | WFree => 16 + 3 * len (q_rl s)
  | WLoop todo => 15 + 3 * len todo | WRun _ todo => 17 + 3 * len todo | WDrop todo => 16 + 3 * len todo
  | WEnd1 => 14 | WEnd2 => 13
  end.
Lemma rest_pos s : tinv s -> 0 <= rest s.
Proof.
  intros [_ P]. dinv s. unfold rest, place in *. cbn in *. pose proof (len_pos wl). pose proof (len_pos rl).
  destruct pc as [| | | | | | |todo|t todo|todo| | |]; cbn in *; ands; subst; try (pose proof (len_pos todo)); try lia.
Qed.
Lemma work_rest s : tinv s -> q_add s = PNone -> q_ran s <> q_added s -> rest (work s) < rest s.
Proof.
  intros [[R L] P] A N. dinv s. subst ad. unfold rest, place, work in *. cbn in *. pose proof (len_pos wl). pose proof (len_pos rl).
  assert (W : forall a : list Z, a <> a ++ wl -> 0 < len wl).
  { intros a Na. destruct wl; [now rewrite app_nil_r in Na|]. rewrite len_cons. pose proof (len_pos wl). lia. }
  destruct pc as [| | | | | | |todo|t todo|todo| | |]; cbn in *; ands; subst; change (0 <? 0) with false; cbn; try apply W in N; change (len (@nil Z)) with 0; try lia.
  - destruct (0 <? len rl) eqn:E; cbn; [lia|]. assert (Z0 : len rl = 0) by lia. apply len_zero in Z0. subst rl. now rewrite app_nil_r in N.
  - destruct todo as [|t todo]; cbn; rewrite ?len_cons; change (len (@nil Z)) with 0 in *; rewrite ?len_cons in *; lia.
Qed.
Lemma work_keeps s : q_added (work s) = q_added s /\ q_add (work s) = q_add s /\ begins (q_ran s) (q_ran (work s)).
Proof.
  dinv s. unfold work. cbn. destruct pc as [| | | | | | |todo|t todo|todo| | |]; cbn; try (repeat split; apply begins_refl).
  - destruct (0 <? rn); cbn; repeat split; apply begins_refl.
  - destruct lk; cbn; repeat split; apply begins_refl.
  - destruct todo; cbn; repeat split; try apply begins_refl. apply begins_app, begins_refl.
Qed.
Lemma works_done n : forall s, tinv s -> q_add s = PNone -> rest s < Z.of_nat n -> exists k, (k <= n)%nat /\ q_ran (works k s) = q_added s.
Proof.
  induction n as [|n IH]; intros s I A H.
  - pose proof (rest_pos s I). lia.
  - destruct (list_eq_dec Z.eq_dec (q_ran s) (q_added s)) as [E|E].
    + exists 0%nat. split; [lia|exact E].
    + pose proof (work_rest s I A E). destruct (work_keeps s) as (K1 & K2 & _).
      destruct (IH (work s)) as (k & Hk & E'); [now apply work_inv|congruence|lia|].
      exists (S k). split; [lia|]. cbn. congruence.
Qed.
Lemma works_keeps k : forall s, q_added (works k s) = q_added s /\ begins (q_ran s) (q_ran (works k s)).
Proof.
  induction k as [|k IH]; cbn; intros s; [split; [reflexivity|apply begins_refl]|].
  destruct (work_keeps s) as (K1 & _ & [c K3]), (IH (work s)) as [I1 [d I2]]. split; [congruence|]. exists (c ++ d). rewrite I2, K3. now rewrite app_assoc.
Qed.
Lemma begins_same {A} (a b : list A) : begins a b -> begins b a -> a = b.
Proof. intros [c E] [d F]. rewrite E in F. apply (f_equal (@length A)) in F. rewrite !app_length in F. destruct c; [now rewrite app_nil_r in E|cbn in F; lia]. Qed.
Lemma works_inv k : forall s, tinv s -> tinv (works k s).
Proof. induction k as [|k IH]; cbn; intros s I; [exact I|]. apply IH, work_inv, I. Qed.
Lemma trun_works wf n : forall s, trun wf (repeat TWork n) s = Some (works n s).
Proof. induction n as [|n IH]; cbn; intros s; [reflexivity|apply IH]. Qed.
Lemma works_all s : tinv s -> q_add s = PNone -> exists k, forall n, (k <= n)%nat -> q_ran (works n s) = q_added s.
Proof.
  intros I A. destruct (works_done (S (Z.to_nat (rest s))) s I A) as (k & _ & E). { pose proof (rest_pos s I). lia. }
  exists k. intros n Hn. replace n with (k + (n - k))%nat by lia. rewrite works_add.
  destruct (works_keeps (n - k) (works k s)) as [K1 K2], (works_keeps k s) as [K3 _]. rewrite E in K2.
  apply begins_same; [|exact K2]. destruct (tinv_once (works (n - k) (works k s))) as [B _]; [now apply works_inv, works_inv|].
  now rewrite K1, K3 in B.
Qed.

(** ** the pool *)
Lemma hash_range k n : 1 <= n -> 0 <= get_hash k n < n.
Proof. intros H. unfold get_hash. destruct (n <? 1) eqn:E; [lia|]. apply Z.mod_pos_bound. lia. Qed.
Lemma set_worker_len ws i w : (i < length ws)%nat -> length (set_worker ws i w) = length ws.
Proof. intros H. unfold set_worker. rewrite app_length, firstn_length. cbn [length]. rewrite skipn_length. lia. Qed.
Lemma set_worker_get ws i w j : (i < length ws)%nat -> nth_error (set_worker ws i w) j = if Nat.eqb j i then Some w else nth_error ws j.
Proof.
  revert i j. induction ws as [|x ws IH]; intros i j H; [cbn in H; lia|]. destruct i as [|i], j as [|j]; try reflexivity.
  cbn [length] in H. change (set_worker (x :: ws) (S i) w) with (x :: set_worker ws i w). cbn [nth_error Nat.eqb]. apply IH. lia.
Qed.
Definition slot (n : nat) (k : list Z) : nat := Z.to_nat (get_hash k (Z.of_nat n)).
Definition sel (n i : nat) (l : list (list Z * Z)) : list (list Z * Z) := filter (fun p => Nat.eqb (slot n (fst p)) i) l.
Arguments sel : simpl never.
Lemma sel_app n i a b : sel n i (a ++ b) = sel n i a ++ sel n i b.
Proof. unfold sel. apply filter_app. Qed.
Lemma sel_one n i k t : sel n i [(k, t)] = if Nat.eqb (slot n k) i then [(k, t)] else [].
Proof. reflexivity. Qed.
Lemma of_key_sel n k l : of_key k (sel n (slot n k) l) = of_key k l.
Proof.
  unfold of_key, sel. f_equal. induction l as [|[k1 t] l IH]; [reflexivity|]. cbn [filter fst].
  destruct (list_eq_dec Z.eq_dec k1 k) as [->|N].
  - rewrite Nat.eqb_refl. cbn [filter fst]. destruct (list_eq_dec Z.eq_dec k k); [now f_equal|congruence].
  - destruct (Nat.eqb (slot n k1) (slot n k)); [cbn [filter fst]; destruct (list_eq_dec Z.eq_dec k1 k); [congruence|]|]; exact IH.
Qed.
Lemma of_key_app k a b : of_key k (a ++ b) = of_key k a ++ of_key k b.
Proof. unfold of_key. now rewrite filter_app, map_app. Qed.
Lemma of_key_begins n k a b : begins (sel n (slot n k) a) (sel n (slot n k) b) -> begins (of_key k a) (of_key k b).
Proof. intros [c E]. exists (of_key k c). rewrite <- (of_key_sel n k b), E, of_key_app. now rewrite of_key_sel. Qed.

Definition doing (p : mpc) : list (list Z * Z) := match p with MFree t => [t] | _ => [] end.
Definition good (n i : nat) (p : mpool) (w : mworker) : Prop :=
  sel n i (m_added p) = sel n i (m_done p) ++ m_tasks w /\
  sel n i (m_ran p) = sel n i (m_done p) ++ doing (m_pc w) /\
  match m_pc w with MGet => m_tasks w <> [] | MRun t | MFree t => nth_error (m_tasks w) 0 = Some t | _ => True end.
Definition scan_ok (n : nat) (p : mpool) : Prop :=
  begins (m_must p) (m_added p) /\
  match m_scan p with
  | Some j => forall i, (i < j)%nat -> begins (sel n i (m_must p)) (sel n i (m_done p))
  | None => m_over p = true -> forall i, (i < n)%nat -> begins (sel n i (m_must p)) (sel n i (m_done p))
  end.
Definition minv (n : nat) (p : mpool) : Prop :=
  (1 <= n)%nat /\ length (m_ws p) = n /\ (forall i w, nth_error (m_ws p) i = Some w -> good n i p w) /\ scan_ok n p.
Lemma slot_lt n k : (1 <= n)%nat -> (slot n k < n)%nat.
Proof. intros H. unfold slot. pose proof (hash_range k (Z.of_nat n) ltac:(lia)). lia. Qed.
Lemma madd_inv n p k t : minv n p -> minv n (madd p k t).
Proof.
  intros (N & L & G & S1 & S2). unfold madd. rewrite L. change (Z.to_nat (get_hash k (Z.of_nat n))) with (slot n k). pose proof (slot_lt n k N) as H.
  destruct (nth_error (m_ws p) (slot n k)) as [w|] eqn:E; [|exact (conj N (conj L (conj G (conj S1 S2))))].
  refine (conj N (conj _ (conj _ _))); cbn [m_ws].
  - rewrite set_worker_len; lia.
  - intros i w1. rewrite set_worker_get by lia. destruct (Nat.eqb i (slot n k)) eqn:Ei.
    + apply Nat.eqb_eq in Ei. subst i. intros [= <-]. destruct (G _ _ E) as (G1 & G2 & G3). unfold good. cbn.
      rewrite sel_app, sel_one, Nat.eqb_refl, G1, <- app_assoc. refine (conj eq_refl (conj G2 _)).
      destruct (m_pc w); auto; destruct (m_tasks w); cbn in *; congruence.
    + intros E1. destruct (G _ _ E1) as (G1 & G2 & G3). unfold good. cbn. rewrite sel_app, sel_one.
      rewrite Nat.eqb_sym, Ei, app_nil_r. exact (conj G1 (conj G2 G3)).
  - split; cbn; [now apply begins_app|exact S2].
Qed.
Lemma madds_inv n l : forall p, minv n p -> minv n (madds p l).
Proof. induction l as [|[k t] l IH]; cbn; intros p I; [exact I|]. apply IH, madd_inv, I. Qed.
Lemma mwork_inv n spawn p i : minv n p -> exists p', mwork spawn p i = Some p' /\ minv n p'.
Proof.
  intros (N & L & G & S1 & S2). unfold mwork. destruct (nth_error (m_ws p) i) as [w|] eqn:E; [|exists p; split; [reflexivity|exact (conj N (conj L (conj G (conj S1 S2))))]].
  assert (Hi : (i < length (m_ws p))%nat) by (apply nth_error_Some; congruence).
  assert (Hn : (i < n)%nat) by lia.
  destruct (G _ _ E) as (G1 & G2 & G3).
  assert (W : forall pc, doing pc = doing (m_pc w) -> match pc with MGet => m_tasks w <> [] | MRun t | MFree t => nth_error (m_tasks w) 0 = Some t | _ => True end ->
     minv n (with_worker p i (mkmw (m_tasks w) (m_exit w) pc))).
  { intros pc D C. refine (conj N (conj _ (conj _ _))).
    - cbn. now rewrite set_worker_len.
    - cbn. intros j w1. rewrite set_worker_get by exact Hi. destruct (Nat.eqb j i) eqn:Ej.
      + apply Nat.eqb_eq in Ej. subst j. intros [= <-]. unfold good. cbn. rewrite D. exact (conj G1 (conj G2 C)).
      + intros E1. exact (G _ _ E1).
    - exact (conj S1 S2). }
  destruct (m_pc w) as [| | |t|t| |] eqn:EP; cbn [doing] in *.
  - eexists. split; [reflexivity|]. apply W; destruct (m_exit w); cbn; auto.
  - eexists. split; [reflexivity|]. destruct (m_tasks w) as [|t ts] eqn:ET; apply W; destruct (0 <? _) eqn:E0; cbn; auto; cbn in E0; try discriminate; congruence.
  - destruct (m_tasks w) as [|t ts] eqn:ET; [congruence|]. eexists. split; [reflexivity|]. apply W; cbn; auto.
  - eexists. split; [reflexivity|]. apply madds_inv. refine (conj N (conj _ (conj _ _))); cbn.
    + now rewrite set_worker_len.
    + intros j w1. rewrite set_worker_get by exact Hi. destruct (m_tasks w) as [|t1 ts] eqn:ET; [discriminate|]. cbn in G3. injection G3 as ->.
      assert (St : slot n (fst t) = i).
      { assert (IN : In t (sel n i (m_added p))) by (rewrite G1; apply in_or_app; right; now left). apply filter_In in IN as [_ IN]. now apply Nat.eqb_eq in IN. }
      destruct (Nat.eqb j i) eqn:Ej.
      * apply Nat.eqb_eq in Ej. subst j. intros [= <-]. unfold good. cbn. rewrite sel_app. destruct t as [k t]. rewrite sel_one. cbn in St. rewrite St, Nat.eqb_refl.
        rewrite G2, app_nil_r. exact (conj G1 (conj eq_refl eq_refl)).
      * intros E1. destruct (G _ _ E1) as (H1 & H2 & H3). unfold good. cbn. rewrite sel_app. destruct t as [k t]. rewrite sel_one. cbn in St. rewrite St, Nat.eqb_sym, Ej, app_nil_r.
        exact (conj H1 (conj H2 H3)).
    + exact (conj S1 S2).
  - eexists. split; [reflexivity|]. destruct (m_tasks w) as [|t1 ts] eqn:ET; [discriminate|]. cbn in G3. injection G3 as ->.
    assert (St : slot n (fst t) = i).
    { assert (IN : In t (sel n i (m_added p))) by (rewrite G1; apply in_or_app; right; now left). apply filter_In in IN as [_ IN]. now apply Nat.eqb_eq in IN. }
    refine (conj N (conj _ (conj _ _))); cbn.
    + now rewrite set_worker_len.
    + intros j w1. rewrite set_worker_get by exact Hi. destruct (Nat.eqb j i) eqn:Ej.
      * apply Nat.eqb_eq in Ej. subst j. intros [= <-]. unfold good. cbn. rewrite sel_app. destruct t as [k t]. rewrite sel_one. cbn in St. rewrite St, Nat.eqb_refl.
        rewrite G1, G2, <- app_assoc, app_nil_r. exact (conj eq_refl (conj eq_refl Logic.I)).
      * intros E1. destruct (G _ _ E1) as (H1 & H2 & H3). unfold good. cbn. rewrite sel_app. destruct t as [k t]. rewrite sel_one. cbn in St. rewrite St, Nat.eqb_sym, Ej, app_nil_r.
        exact (conj H1 (conj H2 H3)).
    + split; cbn; [exact S1|]. destruct (m_scan p) as [j0|].
      * intros j Hj. rewrite sel_app. apply begins_app. now apply S2.
      * intros O j Hj. rewrite sel_app. apply begins_app. now apply S2.
  - eexists. split; [reflexivity|]. apply W; cbn; auto.
  - eexists. split; [reflexivity|]. exact (conj N (conj L (conj G (conj S1 S2)))).
Qed.
Lemma begins_sel n i a b : begins a b -> begins (sel n i a) (sel n i b).
Proof. intros [c ->]. exists (sel n i c). apply sel_app. Qed.
Lemma mwait_inv n p : minv n p -> minv n (mwait p).
Proof.
  intros (N & L & G & S1 & S2). unfold mwait. destruct (m_scan p) as [j|] eqn:ES.
  - destruct (nth_error (m_ws p) j) as [w|] eqn:E.
    + destruct (G _ _ E) as (G1 & _). destruct (0 <? Z.of_nat (length (m_tasks w))) eqn:E0; refine (conj N (conj L (conj G (conj S1 _)))); cbn.
      * intros i Hi. lia.
      * intros i Hi. destruct (Nat.eq_dec i j) as [->|Ne]; [|apply S2; lia].
        assert (ET : m_tasks w = []) by (destruct (m_tasks w); [reflexivity|cbn in E0; discriminate]).
        rewrite ET, app_nil_r in G1. rewrite <- G1. now apply begins_sel.
    + refine (conj N (conj L (conj G (conj S1 _)))); cbn. intros _ i Hi. apply S2. apply nth_error_None in E. lia.
  - destruct (m_over p) eqn:EO.
    + refine (conj N (conj L (conj G (conj S1 _)))). rewrite ES, EO. exact S2.
    + refine (conj N (conj L (conj G (conj _ _)))); cbn; [apply begins_refl|]. intros i Hi. lia.
Qed.
Lemma mstep_inv n spawn a p : minv n p -> exists p', mstep spawn a p = Some p' /\ minv n p'.
Proof.
  intros I. destruct a as [i|k t| |i]; cbn [mstep].
  - now apply mwork_inv.
  - eexists. split; [reflexivity|now apply madd_inv].
  - eexists. split; [reflexivity|now apply mwait_inv].
  - destruct I as (N & L & G & S). destruct (nth_error (m_ws p) i) as [w|] eqn:E; (eexists; split; [reflexivity|]); [|exact (conj N (conj L (conj G S)))].
    assert (Hi : (i < length (m_ws p))%nat) by (apply nth_error_Some; congruence).
    refine (conj N (conj _ (conj _ S))); cbn; [now rewrite set_worker_len|]. intros j w1. rewrite set_worker_get by exact Hi.
    destruct (Nat.eqb j i) eqn:Ej; [|intros E1; exact (G _ _ E1)]. apply Nat.eqb_eq in Ej. subst j. intros [= <-]. exact (G _ _ E).
Qed.
Lemma mrun_inv n spawn l : forall p, minv n p -> exists p', mrun spawn l p = Some p' /\ minv n p'.
Proof.
  induction l as [|a l IH]; cbn; intros p I; [exists p; auto|].
  destruct (mstep_inv n spawn a p I) as (p1 & E & I1). rewrite E. now apply IH.
Qed.
Lemma nth_error_repeat_in {A} (x : A) n i w : nth_error (repeat x n) i = Some w -> w = x.
Proof. intros H. apply nth_error_In in H. now apply repeat_spec in H. Qed.
Lemma mcreate_inv nums : minv (Z.to_nat (Z.max 1 (Z.min nums 64))) (mcreate nums).
Proof.
  refine (conj _ (conj _ (conj _ _))); [lia|apply repeat_length| |].
  - intros i w H. apply nth_error_repeat_in in H. subst w. repeat split.
  - split; [apply begins_refl|]. cbn. discriminate.
Qed.
Lemma minv_key n p k : minv n p -> begins (of_key k (m_ran p)) (of_key k (m_added p)) /\ begins (of_key k (m_done p)) (of_key k (m_ran p)).
Proof.
  intros (N & L & G & _). pose proof (slot_lt n k N) as H. destruct (nth_error (m_ws p) (slot n k)) as [w|] eqn:E.
  2: { apply nth_error_None in E. lia. }
  destruct (G _ _ E) as (G1 & G2 & G3). split; apply (of_key_begins n).
  - rewrite G1, G2. destruct (m_pc w) as [| | |t|t| |]; cbn [doing]; try (exists (m_tasks w); now rewrite app_nil_r).
    destruct (m_tasks w) as [|t1 ts]; [discriminate|]. cbn in G3. injection G3 as ->. exists ts. now rewrite <- app_assoc.
  - rewrite G2. eexists. reflexivity.
Qed.

(** *** the threads get everything done *)
Definition calm (p : mpool) : Prop := forall i w, nth_error (m_ws p) i = Some w -> m_exit w = false /\ m_pc w <> MStop.
Fixpoint mworks (n : nat) (i : nat) (p : mpool) : option mpool :=
  match n with O => Some p | S n' => match mwork nospawn p i with None => None | Some p' => mworks n' i p' end end.
Lemma mrun_works n i : forall p, mrun nospawn (repeat (MWork i) n) p = mworks n i p.
Proof. induction n as [|n IH]; cbn; intros p; [reflexivity|]. destruct (mwork nospawn p i); [apply IH|reflexivity]. Qed.
Lemma mworks_add a b i : forall p, mworks (a + b) i p = match mworks a i p with None => None | Some p' => mworks b i p' end.
Proof. induction a as [|a IH]; cbn; intros p; [reflexivity|]. destruct (mwork nospawn p i); [apply IH|reflexivity]. Qed.
Definition mrest (w : mworker) : Z :=
  10 * len (m_tasks w) + match m_pc w with MSleep => 6 | MTop => 5 | MCheck => 4 | MGet => 3 | MRun _ => 2 | MFree _ => 1 | MStop => 0 end.
(** one step of a thread that has tasks and is not asked to end *)
Lemma mwork_next n p i w p' : minv n p -> nth_error (m_ws p) i = Some w -> m_exit w = false -> m_pc w <> MStop -> m_tasks w <> [] ->
  mwork nospawn p i = Some p' ->
  m_added p' = m_added p /\ exists w', nth_error (m_ws p') i = Some w' /\ m_exit w' = false /\ m_pc w' <> MStop /\ mrest w' < mrest w.
Proof.
  intros (N & L & G & _) E X NS T H. assert (Hi : (i < length (m_ws p))%nat) by (apply nth_error_Some; congruence).
  unfold mwork in H. rewrite E in H. unfold mrest. destruct (m_tasks w) as [|t0 ts] eqn:ET; [congruence|]. rewrite !len_cons. pose proof (len_pos ts).
  destruct (m_pc w) as [| | |t|t| |] eqn:EP; try congruence; injection H as <-; cbn; (split; [reflexivity|]);
    rewrite set_worker_get by exact Hi; rewrite Nat.eqb_refl; eexists; (split; [reflexivity|]); cbn; rewrite X, ?len_cons.
  - repeat split; [discriminate|lia].
  - replace (0 <? Z.of_nat (S (length ts))) with true by lia. repeat split; [discriminate|lia].
  - repeat split; [discriminate|lia].
  - repeat split; [discriminate|lia].
  - repeat split; [discriminate|lia].
  - repeat split; [discriminate|lia].
Qed.
Lemma mworks_done m : forall n p i w, minv n p -> nth_error (m_ws p) i = Some w -> m_exit w = false -> m_pc w <> MStop -> mrest w < Z.of_nat m ->
  exists k p' w', (k <= m)%nat /\ mworks k i p = Some p' /\ minv n p' /\ m_added p' = m_added p /\ nth_error (m_ws p') i = Some w' /\ m_tasks w' = [].
Proof.
  induction m as [|m IH]; intros n p i w I E X NS H.
  - unfold mrest in H. pose proof (len_pos (m_tasks w)). destruct (m_pc w); lia.
  - destruct (m_tasks w) as [|t ts] eqn:ET.
    + exists 0%nat, p, w. refine (conj _ (conj eq_refl (conj I (conj eq_refl (conj E ET))))). lia.
    + destruct (mwork_inv n nospawn p i I) as (p1 & E1 & I1).
      destruct (mwork_next n p i w p1 I E X NS ltac:(congruence) E1) as (A & w1 & F1 & F2 & F3 & F4).
      destruct (IH n p1 i w1 I1 F1 F2 F3 ltac:(lia)) as (k & p' & w' & K1 & K2 & K3 & K4 & K5 & K6).
      exists (S k), p', w'. cbn. rewrite E1. refine (conj _ (conj K2 (conj K3 (conj _ (conj K5 K6))))); [lia|congruence].
Qed.
Lemma mworks_stay m : forall n p i, minv n p -> exists p', mworks m i p = Some p' /\ minv n p' /\ m_added p' = m_added p /\ begins (m_done p) (m_done p').
Proof.
  induction m as [|m IH]; intros n p i I; cbn; [exists p; exact (conj eq_refl (conj I (conj eq_refl (begins_refl _))))|].
  destruct (mwork_inv n nospawn p i I) as (p1 & E & I1). rewrite E. destruct (IH n p1 i I1) as (p' & E' & I' & A' & [c B']). exists p'. split; [exact E'|split; [exact I'|]].
  assert (D : m_added p1 = m_added p /\ begins (m_done p) (m_done p1)).
  { unfold mwork in E. destruct (nth_error (m_ws p) i) as [w|]; [|injection E as <-; split; [reflexivity|apply begins_refl]].
    destruct (m_pc w); [| |destruct (m_tasks w); [discriminate|]| | | |]; injection E as <-; cbn; split; try reflexivity; try apply begins_refl. apply begins_app, begins_refl. }
  destruct D as [D1 [d D2]]. split; [congruence|]. exists (d ++ c). now rewrite B', D2, app_assoc.
Qed.
Lemma key_done n p k : minv n p -> calm p -> exists i m, forall q, (m <= q)%nat ->
  exists p', mrun nospawn (repeat (MWork i) q) p = Some p' /\ of_key k (m_done p') = of_key k (m_added p) /\ m_added p' = m_added p.
Proof.
  intros I C. destruct (I) as (N & L & G & _). pose proof (slot_lt n k N) as H. exists (slot n k).
  destruct (nth_error (m_ws p) (slot n k)) as [w|] eqn:E. 2: { apply nth_error_None in E. lia. }
  destruct (C _ _ E) as [X NS].
  destruct (mworks_done (S (Z.to_nat (mrest w))) n p (slot n k) w I E X NS) as (m & p1 & w1 & _ & R & I1 & A1 & E1 & T1).
  { unfold mrest in *. pose proof (len_pos (m_tasks w)). destruct (m_pc w); lia. }
  exists m. intros q Hq. replace q with (m + (q - m))%nat by lia. rewrite mrun_works, mworks_add, R.
  destruct (mworks_stay (q - m) n p1 (slot n k) I1) as (p2 & R2 & I2 & A2 & B2). exists p2. split; [exact R2|].
  destruct I1 as (_ & _ & G1 & _). destruct (G1 _ _ E1) as (D1 & _). rewrite T1, app_nil_r in D1.
  split; [|congruence]. apply begins_same.
  - destruct (minv_key n p2 k I2) as [[a B] [b B']]. exists (b ++ a). rewrite <- A1, <- A2, B, B'. now rewrite app_assoc.
  - rewrite <- (of_key_sel n k (m_added p)), <- A1, D1, of_key_sel. destruct B2 as [c ->]. rewrite of_key_app. eexists. reflexivity.
Qed.

(** *** a task that is in no list is never run *)
Definition no_task (s : tq) : Prop := q_wl s = [] /\ q_rl s = [] /\ match q_pc s with WLoop (_ :: _) | WRun _ _ | WDrop _ => False | _ => True end.
Lemma no_task_work s : no_task s -> no_task (work s) /\ q_ran (work s) = q_ran s.
Proof.
  intros (A & B & C). dinv s. subst. unfold work, no_task. cbn. destruct pc as [| | | | | | |todo|t todo|todo| | |]; cbn; try contradiction; auto.
  - destruct (0 <? rn); cbn; auto.
  - destruct lk; cbn; auto.
  - destruct (0 <? rn); cbn; auto.
  - destruct todo; [cbn; auto|contradiction].
Qed.
Lemma no_task_works n : forall s, no_task s -> q_ran (works n s) = q_ran s.
Proof. induction n as [|n IH]; cbn; intros s H; [reflexivity|]. destruct (no_task_work s H) as [H1 H2]. rewrite IH by exact H1. exact H2. Qed.
