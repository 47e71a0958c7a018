(** Lemmas on the queue with two lists. *)
From Verif Require Import Base S_fastq M_fastq.
From Coq Require Import ZifyBool ZifyNat.

Lemma nth_set_ft : forall l i t j, nth_error (set_ft l i t) j =
  if Nat.eqb j i then match nth_error l i with Some _ => Some t | None => None end else nth_error l j.
Proof.
  induction l as [|x l IH]; intros i t j; cbn [set_ft].
  - destruct (Nat.eqb j i); destruct j; destruct i; reflexivity.
  - destruct i as [|i]; destruct j as [|j]; cbn [nth_error Nat.eqb]; try reflexivity. apply IH.
Qed.
Lemma length_set_ft : forall l i t, length (set_ft l i t) = length l.
Proof. induction l as [|x l IH]; intros [|i] t; cbn [set_ft length]; auto. Qed.

Definition in_w (p : fpc) : bool :=
  match p with PLink _ | PTail _ | PNum | PUnl | MChk _ | M1 _ | M2 _ | M3 _ | M4 _ | M5 _ | MUnl _ => true | _ => false end.
Definition in_r (p : fpc) : bool := match p with D0 _ | DLoop _ _ | DCall _ _ _ | DFree _ _ _ | DHead _ _ | DUnl => true | _ => false end.
(** the place of the owner of a lock *)
Definition phase (th : list fth) (o : option nat) : fpc :=
  match o with Some i => match nth_error th i with Some t => t_pc t | None => FIdle end | None => FIdle end.
Definition owners (s : fqs) : Prop :=
  forall i t, nth_error (q_th s) i = Some t ->
    (in_w (t_pc t) = true <-> q_wl s = Some i) /\ (in_r (t_pc t) = true <-> q_rl s = Some i).

(** the last node *)
Definition lastn (s : fqs) : nat := length (q_cells s) + 1.
Definition run_to (s : fqs) (lo hi : nat) : Prop :=
  (forall k, lo <= k < hi -> q_next s k = Some (S k))%nat /\ q_next s hi = None.
Definition rchain (s : fqs) (e : nat) : Prop := (q_rhead s <= e <= lastn s)%nat /\ run_to s (q_rhead s) e.
(** the write list holds the nodes after [b] *)
Definition wchain (s : fqs) (b : nat) : Prop :=
  q_next s 0%nat = (if (b <? lastn s)%nat then Some (S b) else None) /\ ((b < lastn s)%nat -> run_to s (S b) (lastn s)).
Definition wend (b n : nat) : nat := if (b <? n)%nat then n else 0%nat.
Definition wpart (wp : fpc) (s : fqs) : Prop :=
  match wp with
  | PTail a => a = lastn s /\ exists b, rchain s b /\ q_rtail s = b /\ (b < lastn s)%nat /\ wchain s b /\
      q_wtail s = wend b (lastn s - 1) /\ q_wnums s = Z.of_nat (lastn s - 1 - b)
  | PNum => exists b, rchain s b /\ q_rtail s = b /\ (b < lastn s)%nat /\ wchain s b /\ q_wtail s = lastn s /\ q_wnums s = Z.of_nat (lastn s - 1 - b)
  | M2 _ => rchain s (lastn s) /\ q_wtail s = lastn s
  | M3 _ => rchain s (lastn s) /\ q_rtail s = lastn s
  | M4 _ => rchain s (lastn s) /\ q_rtail s = lastn s /\ q_next s 0%nat = None
  | M5 _ => rchain s (lastn s) /\ q_rtail s = lastn s /\ q_next s 0%nat = None /\ q_wtail s = 0%nat
  | _ => exists b, rchain s b /\ q_rtail s = b /\ wchain s b /\ q_wtail s = wend b (lastn s) /\ q_wnums s = Z.of_nat (lastn s - b) /\
      match wp with M1 _ => (b < lastn s)%nat | _ => True end
  end.
Definition rpart (rp : fpc) (s : fqs) : Prop :=
  (1 <= q_rhead s)%nat /\
  (forall a, In a (q_freed s) -> (1 <= a < q_rhead s + match rp with DHead _ _ => 1 | _ => 0 end)%nat) /\
  map fst (q_taken s) = firstn (q_rhead s - match rp with DFree _ _ _ | DHead _ _ => 0 | _ => 1 end) (q_cells s) /\
  match rp with
  | DLoop _ a => a = q_rhead s
  | DCall _ a x | DFree _ a x => a = q_rhead s /\ x = S (q_rhead s) /\ q_next s (q_rhead s) = Some x
  | DHead _ x => x = S (q_rhead s) /\ q_next s (q_rhead s) = Some x
  | _ => True
  end.
Definition pending (p : fpc) : list Z := match p with PWait m | PLink m => [m] | _ => [] end.
Definition by_of (i : nat) (cells : list (nat * Z)) : list Z := map snd (filter (fun c => Nat.eqb (fst c) i) cells).
Definition calls_ok (s : fqs) : Prop :=
  (forall c, In c (q_cells s) -> (fst c < length (q_th s))%nat) /\
  forall i t, nth_error (q_th s) i = Some t -> t_calls t = by_of i (q_cells s) ++ pending (t_pc t).
Definition finv (s : fqs) : Prop :=
  q_bad s = false /\ owners s /\ wpart (phase (q_th s) (q_wl s)) s /\ rpart (phase (q_th s) (q_rl s)) s /\ calls_ok s.

(** ** what follows from it *)
(** in every phase the read list ends somewhere *)
Lemma some_end : forall wp s, wpart wp s -> exists e, rchain s e.
Proof.
  intros wp s H. destruct wp; cbn [wpart] in H;
    first [destruct H as (b & H & _); exists b; exact H | destruct H as (_ & b & H & _); exists b; exact H | destruct H as (H & _); eexists; exact H].
Qed.
Lemma next_of_head : forall s e x, rchain s e -> q_next s (q_rhead s) = Some x -> (q_rhead s < e)%nat /\ x = S (q_rhead s).
Proof.
  intros s e x ((E1 & E2) & R1 & R2) N. destruct (Nat.eq_dec (q_rhead s) e) as [Q|Q]; [rewrite Q in N; congruence|].
  specialize (R1 (q_rhead s)). rewrite R1 in N by lia. injection N as <-. lia.
Qed.
Lemma not_freed : forall rp s a, rpart rp s -> (a = 0 \/ q_rhead s + match rp with DHead _ _ => 1 | _ => 0 end <= a)%nat -> isfreed s a = false.
Proof.
  intros rp s a (R1 & R2 & _) A. unfold isfreed. destruct (existsb (Nat.eqb a) (q_freed s)) eqn:E; [|reflexivity].
  apply existsb_exists in E. destruct E as (k & K & E). apply Nat.eqb_eq in E. subst k. specialize (R2 a K). lia.
Qed.

Lemma by_of_app : forall i l l', by_of i (l ++ l') = by_of i l ++ by_of i l'.
Proof. intros. unfold by_of. rewrite filter_app, map_app. reflexivity. Qed.
Lemma taken_by_of : forall i tk, taken_by i tk = by_of i (map fst tk).
Proof.
  intros i tk. unfold taken_by, by_of. induction tk as [|x tk IH]; [reflexivity|]. cbn [filter map]. destruct (Nat.eqb (fst (fst x)) i); cbn [map]; rewrite IH; reflexivity.
Qed.
Lemma finv_ok : forall s, finv s -> fifo_ok (fsee s).
Proof.
  intros s (I1 & I2 & I3 & I4 & I5). unfold fifo_ok, fsee. cbn [fv_bad fv_calls fv_taken]. split; [exact I1|].
  destruct I4 as (_ & _ & T & _). destruct I5 as [C1 C2].
  set (cut := firstn _ _) in T. assert (CUT : exists rest, q_cells s = cut ++ rest) by (eexists; symmetry; apply firstn_skipn).
  destruct CUT as [rest CUT]. clearbody cut. rewrite map_length. split.
  - intros x X. apply C1. rewrite CUT. apply in_or_app. left. rewrite <- T. apply in_map. exact X.
  - intros i calls N. rewrite nth_error_map in N. destruct (nth_error (q_th s) i) as [t|] eqn:E; [|discriminate N]. injection N as <-.
    specialize (C2 i t E). rewrite C2, taken_by_of, T, CUT, by_of_app, <- app_assoc. eexists. reflexivity.
Qed.

(** ** steps *)
(** a step of thread [i] from [t] to [p'] changing the locks to [wl'], [rl'] *)
Lemma owners_step : forall s s' i t p' c', owners s -> nth_error (q_th s) i = Some t ->
  q_th s' = set_ft (q_th s) i (mkft p' c') ->
  (q_wl s' = if Bool.eqb (in_w p') (in_w (t_pc t)) then q_wl s else if in_w p' then Some i else None) ->
  (q_rl s' = if Bool.eqb (in_r p') (in_r (t_pc t)) then q_rl s else if in_r p' then Some i else None) ->
  (in_w p' = true -> in_w (t_pc t) = false -> q_wl s = None) -> (in_r p' = true -> in_r (t_pc t) = false -> q_rl s = None) -> owners s'.
Proof.
  intros s s' i t p' c' O N TH W R FW FR j x X. rewrite TH, nth_set_ft in X. destruct (O i t N) as [OW OR]. destruct (Nat.eqb j i) eqn:E.
  - apply Nat.eqb_eq in E. subst j. rewrite N in X. injection X as <-. cbn [t_pc]. rewrite W, R.
    destruct (in_w p'), (in_w (t_pc t)); cbn [Bool.eqb]; destruct (in_r p'), (in_r (t_pc t)); cbn [Bool.eqb]; tauto || (split; split; (congruence || tauto)).
  - apply Nat.eqb_neq in E. destruct (O j x X) as [PW PR]. rewrite W, R.
    assert (G : forall b b' (o : option nat) b2, (b = true <-> o = Some i) -> (b2 = true <-> o = Some j) -> (b' = true -> b = false -> o = None) ->
      (b2 = true <-> (if Bool.eqb b' b then o else if b' then Some i else None) = Some j)).
    { intros b b' o b2 H1 H2 H3. destruct b, b'; cbn [Bool.eqb]; [exact H2| | |exact H2].
      - rewrite H2. destruct H1 as [H1 _]. rewrite H1 by reflexivity. split; congruence.
      - rewrite H2. rewrite H3 by reflexivity. split; congruence. }
    split; [apply (G (in_w (t_pc t))); assumption|apply (G (in_r (t_pc t))); assumption].
Qed.

Lemma phase_step : forall th i t t' o o', nth_error th i = Some t ->
  (o = Some i -> o' = Some i \/ o' = None) -> (o <> Some i -> o' = o \/ o' = Some i /\ o = None) ->
  phase (set_ft th i t') o' = match o' with Some j => if Nat.eqb j i then t_pc t' else phase th o | None => FIdle end.
Proof.
  intros th i t t' o o' N H1 H2. destruct o' as [j|]; [|reflexivity]. unfold phase at 1. rewrite nth_set_ft. destruct (Nat.eqb j i) eqn:E.
  - rewrite N. reflexivity.
  - apply Nat.eqb_neq in E. destruct o as [k|].
    + destruct (Nat.eq_dec k i) as [->|K]; [destruct (H1 eq_refl); congruence|]. destruct H2 as [H2|H2]; [congruence| |destruct H2; congruence].
      injection H2 as ->. reflexivity.
    + destruct H2 as [H2|H2]; [discriminate|discriminate H2|destruct H2; congruence].
Qed.

Lemma step_inv : forall s s' i t p' c', finv s -> nth_error (q_th s) i = Some t -> q_th s' = set_ft (q_th s) i (mkft p' c') ->
  (q_wl s' = if Bool.eqb (in_w p') (in_w (t_pc t)) then q_wl s else if in_w p' then Some i else None) ->
  (q_rl s' = if Bool.eqb (in_r p') (in_r (t_pc t)) then q_rl s else if in_r p' then Some i else None) ->
  (in_w p' = true -> in_w (t_pc t) = false -> q_wl s = None) -> (in_r p' = true -> in_r (t_pc t) = false -> q_rl s = None) ->
  q_bad s' = false -> calls_ok s' ->
  wpart (if in_w p' then p' else if in_w (t_pc t) then FIdle else phase (q_th s) (q_wl s)) s' ->
  rpart (if in_r p' then p' else if in_r (t_pc t) then FIdle else phase (q_th s) (q_rl s)) s' -> finv s'.
Proof.
  intros s s' i t p' c' (I1 & I2 & I3 & I4 & I5) N TH W R FW FR B C WP RP.
  split; [exact B|]. split; [exact (owners_step s s' i t p' c' I2 N TH W R FW FR)|]. destruct (I2 i t N) as [OW OR].
  assert (PH : forall (inw : fpc -> bool) (o o' : option nat), (inw (t_pc t) = true <-> o = Some i) ->
    o' = (if Bool.eqb (inw p') (inw (t_pc t)) then o else if inw p' then Some i else None) -> (inw p' = true -> inw (t_pc t) = false -> o = None) ->
    phase (set_ft (q_th s) i (mkft p' c')) o' = if inw p' then p' else if inw (t_pc t) then FIdle else phase (q_th s) o).
  { intros inw o o' H1 H2 H3. rewrite (phase_step (q_th s) i t _ o o' N).
    - rewrite H2. cbn [t_pc]. destruct (inw p') eqn:P, (inw (t_pc t)) eqn:Q; cbn [Bool.eqb].
      + destruct H1 as [H1 _]. rewrite H1 by reflexivity. rewrite Nat.eqb_refl. reflexivity.
      + rewrite Nat.eqb_refl. reflexivity.
      + reflexivity.
      + destruct o as [j|]; [|reflexivity]. destruct (Nat.eqb j i) eqn:E; [|reflexivity]. apply Nat.eqb_eq in E. subst j.
        destruct H1 as [_ H1]. specialize (H1 eq_refl). discriminate H1.
    - intros E. rewrite H2. destruct (inw p') eqn:P, (inw (t_pc t)) eqn:Q; cbn [Bool.eqb]; auto.
    - intros E. rewrite H2. destruct (inw p') eqn:P, (inw (t_pc t)) eqn:Q; cbn [Bool.eqb]; auto. destruct H1 as [H1 _]. specialize (H1 eq_refl). contradiction. }
  split; [rewrite TH, (PH in_w (q_wl s) (q_wl s') OW W FW); exact WP|]. split; [|exact C].
  rewrite TH, (PH in_r (q_rl s) (q_rl s') OR R FR). exact RP.
Qed.

Lemma calls_step : forall s s' i t p' c' ex, calls_ok s -> nth_error (q_th s) i = Some t -> q_th s' = set_ft (q_th s) i (mkft p' c') ->
  q_cells s' = q_cells s ++ ex -> (forall c, In c ex -> fst c = i) -> c' = by_of i (q_cells s ++ ex) ++ pending p' -> calls_ok s'.
Proof.
  intros s s' i t p' c' ex [C1 C2] N TH CE EX K. assert (IL : (i < length (q_th s))%nat) by (apply nth_error_Some; congruence). split.
  - intros c H. rewrite TH, length_set_ft. rewrite CE in H. apply in_app_or in H. destruct H as [H|H]; [apply C1, H|]. rewrite (EX c H). exact IL.
  - intros j x X. rewrite TH, nth_set_ft in X. rewrite CE. destruct (Nat.eqb j i) eqn:E.
    + apply Nat.eqb_eq in E. subst j. rewrite N in X. injection X as <-. exact K.
    + apply Nat.eqb_neq in E. rewrite by_of_app. replace (by_of j ex) with (@nil Z); [rewrite app_nil_r; apply C2, X|].
      clear - EX E. induction ex as [|c ex IH]; [reflexivity|]. unfold by_of in *. cbn [filter]. rewrite (EX c) by (left; reflexivity).
      replace (Nat.eqb i j) with false by (symmetry; apply Nat.eqb_neq; congruence). apply IH. intros d D. apply EX. right. exact D.
Qed.
Lemma calls_keep : forall s s' i t p', calls_ok s -> nth_error (q_th s) i = Some t -> q_th s' = set_ft (q_th s) i (mkft p' (t_calls t)) ->
  q_cells s' = q_cells s -> pending p' = pending (t_pc t) -> calls_ok s'.
Proof.
  intros s s' i t p' C N TH CE P. apply (calls_step s s' i t p' (t_calls t) [] C N TH); [rewrite CE, app_nil_r; reflexivity|intros c []|].
  rewrite app_nil_r, P. destruct C as [_ C]. apply C, N.
Qed.

(** the parts of the state that each half of the invariant looks at *)
Lemma wpart_same : forall wp s s', q_cells s' = q_cells s -> q_next s' = q_next s -> q_rhead s' = q_rhead s -> q_rtail s' = q_rtail s ->
  q_wtail s' = q_wtail s -> q_wnums s' = q_wnums s -> wpart wp s -> wpart wp s'.
Proof.
  intros wp s s' E1 E2 E3 E4 E5 E6 H. unfold wpart, rchain, wchain, run_to, lastn in *. rewrite E1, E2, E3, E4, E5, E6. exact H.
Qed.
Lemma rpart_same : forall rp s s', q_cells s' = q_cells s -> q_next s' = q_next s -> q_rhead s' = q_rhead s -> q_freed s' = q_freed s ->
  q_taken s' = q_taken s -> rpart rp s -> rpart rp s'.
Proof. intros rp s s' E1 E2 E3 E4 E5 H. unfold rpart in *. rewrite E1, E2, E3, E4, E5. exact H. Qed.

(** the head moves over one node *)
Lemma wpart_head : forall wp s s', q_cells s' = q_cells s -> q_next s' = q_next s -> q_rhead s' = S (q_rhead s) -> q_rtail s' = q_rtail s ->
  q_wtail s' = q_wtail s -> q_wnums s' = q_wnums s -> q_next s (q_rhead s) = Some (S (q_rhead s)) -> wpart wp s -> wpart wp s'.
Proof.
  intros wp s s' E1 E2 E3 E4 E5 E6 NX H.
  assert (R : forall e, rchain s e -> rchain s' e).
  { intros e RC. destruct (next_of_head _ _ _ RC NX) as [L _]. destruct RC as ((R0 & R1) & R2 & R3). unfold rchain, run_to, lastn in *.
    rewrite E1, E2, E3. split; [lia|]. split; [|exact R3]. intros k K. apply R2. lia. }
  assert (W : forall b, wchain s b -> wchain s' b) by (intros b X; unfold wchain, run_to, lastn in *; rewrite E1, E2; exact X).
  assert (L : lastn s' = lastn s) by (unfold lastn; rewrite E1; reflexivity).
  destruct wp; cbn [wpart] in *; rewrite ?L, ?E2, ?E4, ?E5, ?E6;
    first [destruct H as (H0 & b & H1 & H2 & H3 & H4 & H5); split; [exact H0|]; exists b; split; [apply R, H1|]; split; [exact H2|]; split; [exact H3|]; split; [apply W, H4|exact H5]
          |destruct H as (b & H1 & H2 & H3 & H4 & H5); exists b; split; [apply R, H1|]; split; [exact H2|]; split; [apply W, H3 || exact H3|]; split; [apply W, H4 || exact H4|exact H5]
          |destruct H as (H1 & H2); split; [apply R, H1|exact H2]].
Qed.
(** a link is written where there was none *)
Lemma rpart_link : forall rp s s' a v ex, q_cells s' = q_cells s ++ ex -> q_next s' = upd (q_next s) a v -> q_rhead s' = q_rhead s -> q_freed s' = q_freed s ->
  q_taken s' = q_taken s -> (q_next s a = None \/ a <> q_rhead s) -> (exists e, rchain s e) -> rpart rp s -> rpart rp s'.
Proof.
  intros rp s s' a v ex E1 E2 E3 E4 E5 A [e RC] (R1 & R2 & R3 & R4). unfold rpart. rewrite E2, E3, E4, E5. split; [exact R1|]. split; [exact R2|].
  assert (NX : forall x, q_next s (q_rhead s) = Some x -> upd (q_next s) a v (q_rhead s) = Some x).
  { intros x X. unfold upd. destruct (Nat.eqb (q_rhead s) a) eqn:E; [|exact X]. apply Nat.eqb_eq in E. destruct A; congruence. }
  assert (LE : (q_rhead s - match rp with DFree _ _ _ | DHead _ _ => 0 | _ => 1 end <= length (q_cells s))%nat).
  { pose proof RC as ((RC1 & RC2) & _). unfold lastn in RC2. destruct rp; try lia.
    - destruct R4 as (_ & _ & R4). destruct (next_of_head _ _ _ RC R4). lia.
    - destruct R4 as (_ & R4). destruct (next_of_head _ _ _ RC R4). lia. }
  split.
  - rewrite R3, E1, firstn_app. set (k := (q_rhead s - _)%nat) in *. replace (k - length (q_cells s))%nat with 0%nat by lia. cbn [firstn].
    rewrite app_nil_r. reflexivity.
  - destruct rp; try exact I; try exact R4.
    + destruct R4 as (Q1 & Q2 & Q3). auto.
    + destruct R4 as (Q1 & Q2 & Q3). auto.
    + destruct R4 as (Q1 & Q2). auto.
Qed.
Lemma set_id : forall l i t, nth_error l i = Some t -> set_ft l i t = l.
Proof. induction l as [|x l IH]; intros [|i] t H; cbn in *; try discriminate; [injection H as ->; reflexivity|rewrite IH by exact H; reflexivity]. Qed.

Ltac unf := cbn [to with_wl with_rl put_next with_ptrs touch new_node free_node take q_cells q_next q_freed q_rhead q_rtail q_wtail q_wnums q_wl q_rl q_th q_taken q_bad t_pc t_calls] in *.
Ltac locks I2 N PC := let H := fresh in pose proof (I2 _ _ N) as H; rewrite PC in H; cbn [in_w in_r] in H.

Lemma fstep_inv : forall s i o s', finv s -> fstep s i o = Some s' -> finv s'.
Proof.
  intros s i o s' I E. pose proof I as (I1 & I2 & I3 & I4 & I5). unfold fstep in E.
  destruct (nth_error (q_th s) i) as [t|] eqn:N; [|discriminate E]. pose proof (I2 i t N) as [OW OR].
  destruct (t_pc t) eqn:PC; destruct o as [m'| | |]; try discriminate E; cbn [in_w in_r] in OW, OR.
  - (* push begins *) injection E as <-. apply (step_inv s _ i t (PWait m') (t_calls t ++ [m'])); rewrite ?PC; unf; try reflexivity; try discriminate; auto.
    + destruct I5 as [C1 C2]. apply (calls_step s _ i t (PWait m') (t_calls t ++ [m']) []); unf; auto; [split; assumption|symmetry; apply app_nil_r|intros c []|].
      rewrite app_nil_r, (C2 i t N), PC. cbn [pending]. rewrite app_nil_r. reflexivity.
  - (* read *) destruct (q_wl s) as [j|] eqn:WL; injection E as <-.
    + apply (step_inv s _ i t (DWait true) (t_calls t)); rewrite ?PC; unf; try reflexivity; try discriminate; auto.
      * apply (calls_keep s _ i t (DWait true) I5 N); [reflexivity|reflexivity|rewrite PC; reflexivity].
      * rewrite WL. exact I3.
    + apply (step_inv s _ i t (MChk true) (t_calls t)); rewrite ?PC; unf; try reflexivity; try discriminate; auto.
      * apply (calls_keep s _ i t (MChk true) I5 N); [reflexivity|reflexivity|rewrite PC; reflexivity].
  - (* clear *) injection E as <-. apply (step_inv s _ i t MWait (t_calls t)); rewrite ?PC; unf; try reflexivity; try discriminate; auto.
    apply (calls_keep s _ i t MWait I5 N); [reflexivity|reflexivity|rewrite PC; reflexivity].
  - (* PWait *) destruct (q_wl s) as [j|] eqn:WL; [discriminate E|]. injection E as <-.
    apply (step_inv s _ i t (PLink m) (t_calls t)); rewrite ?PC; unf; try reflexivity; try discriminate; auto.
    apply (calls_keep s _ i t (PLink m) I5 N); [reflexivity|reflexivity|rewrite PC; reflexivity].
  - (* PLink *) injection E as <-. set (a := (length (q_cells s) + 2)%nat). apply proj1 in OW. specialize (OW eq_refl).
    rewrite OW in I3. cbn [phase] in I3. rewrite N, PC in I3. cbn [wpart] in I3. destruct I3 as (b & W1 & W2 & W3 & W4 & W5 & _).
    pose proof W1 as ((W1a & W1b) & W1c & W1d). destruct W3 as [W3a W3b].
    assert (NF : isfreed s (q_wtail s) = false).
    { apply (not_freed _ _ _ I4). rewrite W4. unfold wend. destruct (b <? lastn s)%nat eqn:L; [|left; reflexivity]. right. destruct (phase _ _); lia. }
    assert (WN : q_next s (q_wtail s) = None).
    { rewrite W4. unfold wend. destruct (b <? lastn s)%nat eqn:L; [apply W3b; lia|exact W3a]. }
    assert (LA : lastn (to (put_next (new_node s i m) (q_wtail s) (Some a)) i t (PTail a)) = a) by (unfold lastn, a; unf; rewrite app_length; cbn [length]; lia).
    assert (WA : q_wtail s <> a) by (rewrite W4; unfold wend, lastn, a; destruct (_ <? _)%nat; lia).
    apply (step_inv s _ i t (PTail a) (t_calls t)); rewrite ?PC; unf; try reflexivity; try discriminate; auto.
    + unfold isfreed in *. unf. rewrite I1, NF. reflexivity.
    + apply (calls_step s _ i t (PTail a) (t_calls t) [(i, m)] I5 N); unf; try reflexivity; [intros c [<-|[]]; reflexivity|].
      destruct I5 as [_ I5]. rewrite (I5 i t N), PC, by_of_app. cbn [pending]. unfold by_of at 3. cbn [filter fst]. rewrite Nat.eqb_refl. cbn [map snd].
      rewrite app_nil_r. reflexivity.
    + cbn [in_w wpart]. rewrite LA. split; [reflexivity|]. exists b.
      assert (NX : forall k, (k < a)%nat -> k <> q_wtail s -> q_next (to (put_next (new_node s i m) (q_wtail s) (Some a)) i t (PTail a)) k = q_next s k).
      { intros k K1 K2. unf. unfold upd. replace (k =? q_wtail s)%nat with false by (symmetry; apply Nat.eqb_neq; exact K2).
        replace (k =? length (q_cells s) + 2)%nat with false by (symmetry; apply Nat.eqb_neq; unfold a in K1; lia). reflexivity. }
      assert (NA : q_next (to (put_next (new_node s i m) (q_wtail s) (Some a)) i t (PTail a)) a = None).
      { unf. unfold upd. replace (a =? q_wtail s)%nat with false by (symmetry; apply Nat.eqb_neq; congruence). fold a. rewrite Nat.eqb_refl. reflexivity. }
      assert (NW : q_next (to (put_next (new_node s i m) (q_wtail s) (Some a)) i t (PTail a)) (q_wtail s) = Some a).
      { unf. unfold upd. rewrite Nat.eqb_refl. reflexivity. }
      unfold rchain, wchain, run_to. rewrite LA.
      change (q_rhead (to (put_next (new_node s i m) (q_wtail s) (Some a)) i t (PTail a))) with (q_rhead s).
      change (q_rtail (to (put_next (new_node s i m) (q_wtail s) (Some a)) i t (PTail a))) with (q_rtail s).
      change (q_wtail (to (put_next (new_node s i m) (q_wtail s) (Some a)) i t (PTail a))) with (q_wtail s).
      change (q_wnums (to (put_next (new_node s i m) (q_wtail s) (Some a)) i t (PTail a))) with (q_wnums s).
      set (nx := q_next (to (put_next (new_node s i m) (q_wtail s) (Some a)) i t (PTail a))) in *. clearbody nx.
      assert (R0 : (1 <= q_rhead s)%nat) by (destruct I4; assumption).
      assert (AL : a = S (lastn s)) by (unfold a, lastn; lia).
      assert (WT : (b < lastn s -> q_wtail s = lastn s)%nat /\ (b = lastn s -> q_wtail s = 0)%nat) by (rewrite W4; unfold wend; destruct (b <? lastn s)%nat eqn:L; lia).
      split; [split; [lia|]; split; [intros k K; rewrite NX; [apply W1c, K|lia|lia]|rewrite NX; [exact W1d|lia|lia]]|].
      split; [exact W2|]. split; [lia|]. split; [split|].
      * replace (b <? a)%nat with true by lia. destruct (Nat.eq_dec b (lastn s)) as [Q|Q].
        -- destruct WT as [_ WT]. rewrite (WT Q) in NW. rewrite NW. f_equal. lia.
        -- rewrite NX by lia. rewrite W3a. replace (b <? lastn s)%nat with true by lia. reflexivity.
      * intros _. split; [|exact NA]. intros k K. destruct (Nat.eq_dec k (lastn s)) as [Q|Q].
        -- destruct WT as [WT _]. rewrite <- (WT ltac:(lia)) in Q. rewrite Q, NW. f_equal. rewrite <- (WT ltac:(lia)) in AL. exact AL.
        -- rewrite NX by lia. apply W3b; lia.
      * split; [rewrite W4; unfold wend; rewrite AL, Nat.sub_succ, Nat.sub_0_r; reflexivity|]. rewrite W5. f_equal. lia.
    + cbn [in_r]. apply (rpart_link _ (new_node s i m) _ (q_wtail s) (Some a) []); unf; try reflexivity; [symmetry; apply app_nil_r| | |].
      * left. unf. unfold upd. destruct (q_wtail s =? _)%nat; [reflexivity|exact WN].
      * exists b. unfold rchain, run_to, lastn in *. unf. rewrite app_length. split; [lia|]. unfold upd. split.
        -- intros k K. replace (k =? _)%nat with false by lia. apply W1c, K.
        -- replace (b =? _)%nat with false by lia. exact W1d.
      * apply (rpart_link _ s _ a None [(i, m)]); unf; try reflexivity; [|exists b; exact W1|exact I4].
        right. unfold a, lastn in *. lia.
  - (* PTail *) injection E as <-. apply proj1 in OW. specialize (OW eq_refl).
    rewrite OW in I3. cbn [phase] in I3. rewrite N, PC in I3. cbn [wpart] in I3. destruct I3 as (A & b & W1 & W2 & W3 & W4 & W5 & W6).
    apply (step_inv s _ i t PNum (t_calls t)); rewrite ?PC; unf; try reflexivity; try discriminate; auto.
    + apply (calls_keep s _ i t PNum I5 N); [reflexivity|reflexivity|rewrite PC; reflexivity].
    + cbn [in_w wpart]. exists b. split; [exact W1|]. split; [exact W2|]. split; [exact W3|]. split; [exact W4|]. split; [exact A|exact W6].
  - (* PNum *) injection E as <-. apply proj1 in OW. specialize (OW eq_refl).
    rewrite OW in I3. cbn [phase] in I3. rewrite N, PC in I3. cbn [wpart] in I3. destruct I3 as (b & W1 & W2 & W3 & W4 & W5 & W6).
    apply (step_inv s _ i t PUnl (t_calls t)); rewrite ?PC; unf; try reflexivity; try discriminate; auto.
    + apply (calls_keep s _ i t PUnl I5 N); [reflexivity|reflexivity|rewrite PC; reflexivity].
    + cbn [in_w wpart]. exists b. split; [exact W1|]. split; [exact W2|]. split; [exact W4|]. unfold lastn in *. unf.
      split; [unfold wend; replace (b <? _)%nat with true by lia; exact W5|]. split; [lia|exact Coq.Init.Logic.I].
  - (* PUnl *) injection E as <-. apply proj1 in OW. specialize (OW eq_refl).
    rewrite OW in I3. cbn [phase] in I3. rewrite N, PC in I3.
    apply (step_inv s _ i t FIdle (t_calls t)); rewrite ?PC; unf; try reflexivity; try discriminate; auto.
    apply (calls_keep s _ i t FIdle I5 N); [reflexivity|reflexivity|rewrite PC; reflexivity].
  - (* MWait *) destruct (q_wl s) as [j|] eqn:WL; [discriminate E|]. injection E as <-.
    apply (step_inv s _ i t (MChk false) (t_calls t)); rewrite ?PC; unf; try reflexivity; try discriminate; auto.
    apply (calls_keep s _ i t (MChk false) I5 N); [reflexivity|reflexivity|rewrite PC; reflexivity].
  - (* MChk *) injection E as <-. apply proj1 in OW. specialize (OW eq_refl).
    rewrite OW in I3. cbn [phase] in I3. rewrite N, PC in I3. cbn [wpart] in I3. destruct I3 as (b & W1 & W2 & W3 & W4 & W5 & _).
    destruct (q_wnums s <? 1) eqn:Q.
    + apply (step_inv s _ i t (MUnl d) (t_calls t)); rewrite ?PC; unf; try reflexivity; try discriminate; auto.
      * apply (calls_keep s _ i t (MUnl d) I5 N); [reflexivity|reflexivity|rewrite PC; reflexivity].
      * cbn [in_w wpart]. exists b. split; [exact W1|]. split; [exact W2|]. split; [exact W3|]. split; [exact W4|]. split; [exact W5|exact Coq.Init.Logic.I].
    + apply (step_inv s _ i t (M1 d) (t_calls t)); rewrite ?PC; unf; try reflexivity; try discriminate; auto.
      * apply (calls_keep s _ i t (M1 d) I5 N); [reflexivity|reflexivity|rewrite PC; reflexivity].
      * cbn [in_w wpart]. exists b. split; [exact W1|]. split; [exact W2|]. split; [exact W3|]. split; [exact W4|]. split; [exact W5|]. unfold lastn in *. unf. lia.
  - (* M1 *) injection E as <-. apply proj1 in OW. specialize (OW eq_refl).
    rewrite OW in I3. cbn [phase] in I3. rewrite N, PC in I3. cbn [wpart] in I3. destruct I3 as (b & W1 & W2 & W3 & W4 & W5 & W6).
    pose proof W1 as ((W1a & W1b) & W1c & W1d). destruct W3 as [W3a W3b]. specialize (W3b W6).
    assert (HB : (q_rhead s + match phase (q_th s) (q_rl s) with DHead _ _ => 1 | _ => 0 end <= b)%nat).
    { destruct I4 as (_ & _ & _ & R4). destruct (phase _ _); try lia. destruct R4 as [_ R4]. destruct (next_of_head _ _ _ W1 R4). lia. }
    assert (R0 : (1 <= q_rhead s)%nat) by (destruct I4; assumption).
    apply (step_inv s _ i t (M2 d) (t_calls t)); rewrite ?PC; unf; try reflexivity; try discriminate; auto.
    + rewrite I1. apply (not_freed _ _ _ I4). right. rewrite W2. exact HB.
    + apply (calls_keep s _ i t (M2 d) I5 N); [reflexivity|reflexivity|rewrite PC; reflexivity].
    + cbn [in_w wpart]. unfold rchain, run_to, lastn. unf. fold (lastn s). rewrite W2. unfold upd. split.
      * split; [lia|]. split.
        -- intros k K. destruct (Nat.eqb k b) eqn:Q.
           ++ apply Nat.eqb_eq in Q. subst k. unfold whead. rewrite W3a. replace (b <? lastn s)%nat with true by lia. reflexivity.
           ++ apply Nat.eqb_neq in Q. destruct (Nat.lt_ge_cases k b) as [K2|K2]; [apply W1c; lia|apply W3b; lia].
        -- replace (lastn s =? b)%nat with false by lia. apply W3b.
      * rewrite W4. unfold wend. replace (b <? lastn s)%nat with true by lia. reflexivity.
    + cbn [in_r]. apply (rpart_link _ s _ (q_rtail s) (q_next s whead) []); unf; try reflexivity; [symmetry; apply app_nil_r|left; rewrite W2; exact W1d|exists b; exact W1|exact I4].
  - (* M2 *) injection E as <-. apply proj1 in OW. specialize (OW eq_refl).
    rewrite OW in I3. cbn [phase] in I3. rewrite N, PC in I3. cbn [wpart] in I3. destruct I3 as (W1 & W2).
    apply (step_inv s _ i t (M3 d) (t_calls t)); rewrite ?PC; unf; try reflexivity; try discriminate; auto.
    + apply (calls_keep s _ i t (M3 d) I5 N); [reflexivity|reflexivity|rewrite PC; reflexivity].
    + cbn [in_w wpart]. split; [exact W1|exact W2].
  - (* M3 *) injection E as <-. apply proj1 in OW. specialize (OW eq_refl).
    rewrite OW in I3. cbn [phase] in I3. rewrite N, PC in I3. cbn [wpart] in I3. destruct I3 as (W1 & W2).
    pose proof W1 as ((W1a & W1b) & W1c & W1d). assert (R0 : (1 <= q_rhead s)%nat) by (destruct I4; assumption).
    apply (step_inv s _ i t (M4 d) (t_calls t)); rewrite ?PC; unf; try reflexivity; try discriminate; auto.
    + rewrite I1. apply (not_freed _ _ _ I4). left. reflexivity.
    + apply (calls_keep s _ i t (M4 d) I5 N); [reflexivity|reflexivity|rewrite PC; reflexivity].
    + cbn [in_w wpart]. unfold rchain, run_to, lastn in *. unf. unfold upd, whead. split.
      * split; [lia|]. split; [intros k K; replace (k =? 0)%nat with false by lia; apply W1c, K|]. replace (_ + 1 =? 0)%nat with false by lia. exact W1d.
      * split; [exact W2|reflexivity].
    + cbn [in_r]. apply (rpart_link _ s _ whead None []); unf; try reflexivity; [symmetry; apply app_nil_r|right; unfold whead; lia|exists (lastn s); exact W1|exact I4].
  - (* M4 *) injection E as <-. apply proj1 in OW. specialize (OW eq_refl).
    rewrite OW in I3. cbn [phase] in I3. rewrite N, PC in I3. cbn [wpart] in I3. destruct I3 as (W1 & W2 & W3).
    apply (step_inv s _ i t (M5 d) (t_calls t)); rewrite ?PC; unf; try reflexivity; try discriminate; auto.
    + apply (calls_keep s _ i t (M5 d) I5 N); [reflexivity|reflexivity|rewrite PC; reflexivity].
    + cbn [in_w wpart]. split; [exact W1|]. split; [exact W2|]. split; [exact W3|reflexivity].
  - (* M5 *) injection E as <-. apply proj1 in OW. specialize (OW eq_refl).
    rewrite OW in I3. cbn [phase] in I3. rewrite N, PC in I3. cbn [wpart] in I3. destruct I3 as (W1 & W2 & W3 & W4).
    apply (step_inv s _ i t (MUnl d) (t_calls t)); rewrite ?PC; unf; try reflexivity; try discriminate; auto.
    + apply (calls_keep s _ i t (MUnl d) I5 N); [reflexivity|reflexivity|rewrite PC; reflexivity].
    + cbn [in_w wpart]. exists (lastn s). split; [exact W1|]. split; [exact W2|]. unfold wchain, wend, lastn in *. unf. rewrite Nat.ltb_irrefl.
      split; [split; [exact W3|lia]|]. split; [exact W4|]. split; [lia|exact Coq.Init.Logic.I].
  - (* MUnl *) injection E as <-. apply proj1 in OW. specialize (OW eq_refl).
    rewrite OW in I3. cbn [phase] in I3. rewrite N, PC in I3.
    apply (step_inv s _ i t (DWait d) (t_calls t)); rewrite ?PC; unf; try reflexivity; try discriminate; auto.
    apply (calls_keep s _ i t (DWait d) I5 N); [reflexivity|reflexivity|rewrite PC; reflexivity].
  - (* DWait *) destruct (q_rl s) as [j|] eqn:RL; [discriminate E|]. injection E as <-.
    apply (step_inv s _ i t (D0 d) (t_calls t)); rewrite ?PC; unf; try reflexivity; try discriminate; auto.
    apply (calls_keep s _ i t (D0 d) I5 N); [reflexivity|reflexivity|rewrite PC; reflexivity].
  - (* D0 *) injection E as <-. apply proj1 in OR. specialize (OR eq_refl).
    rewrite OR in I4. cbn [phase] in I4. rewrite N, PC in I4. destruct I4 as (R1 & R2 & R3 & _).
    apply (step_inv s _ i t (DLoop d (q_rhead s)) (t_calls t)); rewrite ?PC; unf; try reflexivity; try discriminate; auto.
    + apply (calls_keep s _ i t (DLoop d (q_rhead s)) I5 N); [reflexivity|reflexivity|rewrite PC; reflexivity].
    + cbn [in_r]. split; [exact R1|]. split; [exact R2|]. split; [exact R3|reflexivity].
  - (* DLoop *) injection E as <-. apply proj1 in OR. specialize (OR eq_refl).
    rewrite OR in I4. cbn [phase] in I4. rewrite N, PC in I4. pose proof I4 as (R1 & R2 & R3 & R4).
    assert (NF : isfreed s a = false) by (apply (not_freed _ _ _ I4); right; lia).
    destruct (q_next s a) as [x|] eqn:NX.
    + apply (step_inv s _ i t (DCall d a x) (t_calls t)); rewrite ?PC; unf; try reflexivity; try discriminate; auto.
      * rewrite I1. exact NF.
      * apply (calls_keep s _ i t (DCall d a x) I5 N); [reflexivity|reflexivity|rewrite PC; reflexivity].
      * cbn [in_r]. split; [exact R1|]. split; [exact R2|]. split; [exact R3|]. unf. rewrite R4 in NX. destruct (some_end _ _ I3) as [e RC].
        split; [exact R4|]. split; [apply (next_of_head _ _ _ RC NX)|exact NX].
    + apply (step_inv s _ i t DUnl (t_calls t)); rewrite ?PC; unf; try reflexivity; try discriminate; auto.
      * rewrite I1. exact NF.
      * apply (calls_keep s _ i t DUnl I5 N); [reflexivity|reflexivity|rewrite PC; reflexivity].
      * cbn [in_r]. split; [exact R1|]. split; [exact R2|]. split; [exact R3|exact Coq.Init.Logic.I].
  - (* DCall *) injection E as <-. apply proj1 in OR. specialize (OR eq_refl).
    rewrite OR in I4. cbn [phase] in I4. rewrite N, PC in I4. pose proof I4 as (R1 & R2 & R3 & R4 & R5 & R6).
    destruct (some_end _ _ I3) as [e RC]. destruct (next_of_head _ _ _ RC R6) as [L _]. destruct RC as ((RC1 & RC2) & _).
    apply (step_inv s _ i t (DFree d a x) (t_calls t)); rewrite ?PC; unf; try reflexivity; try discriminate; auto.
    + rewrite I1. apply (not_freed _ _ _ I4). right. lia.
    + apply (calls_keep s _ i t (DFree d a x) I5 N); [reflexivity|reflexivity|rewrite PC; reflexivity].
    + cbn [in_r]. split; [exact R1|]. split; [exact R2|]. split; [|auto]. unf. rewrite map_app, R3. cbn [map fst]. rewrite R5.
      unfold lastn in RC2. assert (G : forall n (l : list (nat * Z)), (n < length l)%nat -> firstn n l ++ [nth n l (0%nat, 0)] = firstn (S n) l).
      { induction n as [|n IH]; intros [|y l] H; cbn [length] in H; try lia; [reflexivity|].
        change (y :: (firstn n l ++ [nth n l (0%nat, 0)]) = y :: firstn (S n) l). rewrite IH by lia. reflexivity. }
      replace (S (q_rhead s) - 2)%nat with (q_rhead s - 1)%nat by lia. rewrite G by lia. f_equal. lia.
  - (* DFree *) injection E as <-. apply proj1 in OR. specialize (OR eq_refl).
    rewrite OR in I4. cbn [phase] in I4. rewrite N, PC in I4. pose proof I4 as (R1 & R2 & R3 & R4 & R5 & R6).
    apply (step_inv s _ i t (DHead d x) (t_calls t)); rewrite ?PC; unf; try reflexivity; try discriminate; auto.
    + rewrite I1. apply (not_freed _ _ _ I4). right. lia.
    + apply (calls_keep s _ i t (DHead d x) I5 N); [reflexivity|reflexivity|rewrite PC; reflexivity].
    + cbn [in_r]. split; [exact R1|]. split; [|split; [exact R3|auto]]. unf. intros k [<-|K]; [lia|]. specialize (R2 k K). lia.
  - (* DHead *) injection E as <-. apply proj1 in OR. specialize (OR eq_refl).
    rewrite OR in I4. cbn [phase] in I4. rewrite N, PC in I4. pose proof I4 as (R1 & R2 & R3 & R4 & R5).
    apply (step_inv s _ i t (DLoop d x) (t_calls t)); rewrite ?PC; unf; try reflexivity; try discriminate; auto.
    + apply (calls_keep s _ i t (DLoop d x) I5 N); [reflexivity|reflexivity|rewrite PC; reflexivity].
    + cbn [in_w]. apply (wpart_head _ s); unf; try reflexivity; [exact R4|rewrite <- R4; exact R5|exact I3].
    + cbn [in_r]. unfold rpart. unf. split; [lia|]. split; [intros k K; specialize (R2 k K); lia|]. split; [|reflexivity]. rewrite R3. f_equal. lia.
  - (* DUnl *) injection E as <-. apply proj1 in OR. specialize (OR eq_refl).
    rewrite OR in I4. cbn [phase] in I4. rewrite N, PC in I4.
    apply (step_inv s _ i t FIdle (t_calls t)); rewrite ?PC; unf; try reflexivity; try discriminate; auto.
    apply (calls_keep s _ i t FIdle I5 N); [reflexivity|reflexivity|rewrite PC; reflexivity].
Qed.

Lemma fstart_inv : forall n, finv (fstart n).
Proof.
  intros n. unfold finv, fstart. unf. split; [reflexivity|]. split; [|split; [|split; [|split]]].
  - intros i t H. unf. apply nth_error_In, repeat_spec in H. subst t. cbn. split; split; discriminate.
  - cbn [phase wpart]. exists 1%nat. unfold rchain, wchain, run_to, wend, lastn. unf. cbn [length Nat.add]. split; [split; [lia|split; [lia|reflexivity]]|].
    split; [reflexivity|]. split; [split; [reflexivity|cbn; lia]|]. split; [reflexivity|]. split; [reflexivity|exact I].
  - cbn [phase]. unfold rpart. unf. split; [lia|]. split; [intros a []|]. split; [reflexivity|exact I].
  - intros c [].
  - intros i t H. unf. apply nth_error_In, repeat_spec in H. subst t. reflexivity.
Qed.
