(** C48: wait handles. *)
From Verif Require Import Base S_wait M_wait.
From Coq Require Import ZifyBool ZifyNat Sorting.Permutation.

Lemma set_pt_split : forall l i q p, nth_error l i = Some q -> exists a b, l = a ++ q :: b /\ set_pt l i p = a ++ p :: b /\ length a = i.
Proof.
  induction l as [|x l IH]; intros [|i] q p H; try discriminate H.
  - injection H as ->. exists [], l. auto.
  - destruct (IH i q p H) as (a & b & -> & E & L). exists (x :: a), b. simpl. rewrite E, L. auto.
Qed.

Section P.
Variable cap : Z.

(** at most one thread is in sis_wait_malloc *)
Definition one_inside (s : pool) : Prop := forall i j t u, nth_error (pl_th s) i = Some t -> nth_error (pl_th s) j = Some u ->
  p_pc t <> POut -> p_pc u <> POut -> i = j.

Definition pcok (s : pool) (t : pth) : Prop :=
  match p_pc t with
  | POut | PChk => True
  | PFill _ | PSet => concat (psee s) = [] /\ pl_init s = false
  | PScan k => 0 <= k /\ pl_init s = true
  | PTake k => 0 <= k < cap /\ pl_used s k = false /\ pl_init s = true
  end.
Definition pinv (s : pool) : Prop :=
  held_once (psee s) /\ (forall h, In h (concat (psee s)) -> 0 <= h < cap /\ pl_used s h = true) /\
  (pl_init s = false -> concat (psee s) = []) /\ (forall h, pl_used s h = true -> In h (concat (psee s))) /\ (forall t, In t (pl_th s) -> pcok s t).

Lemma owns : forall a (t : pth) b, concat (map p_own (a ++ t :: b)) = concat (map p_own a) ++ p_own t ++ concat (map p_own b).
Proof. intros. rewrite map_app, concat_app. reflexivity. Qed.

Lemma drop1_perm : forall h l, In h l -> Permutation l (h :: drop1 h l).
Proof.
  induction l as [|x l IH]; intros H; [destruct H|]. simpl. destruct (x =? h) eqn:E.
  - replace x with h by lia. reflexivity.
  - destruct H as [H|H]; [lia|]. rewrite (IH H) at 1. constructor.
Qed.

(** the others are outside *)
Lemma others_out : forall s i t a b, one_inside s -> pl_th s = a ++ t :: b -> length a = i -> p_pc t <> POut ->
  forall u, In u a \/ In u b -> p_pc u = POut.
Proof.
  intros s i t a b O E L NT u U. destruct (p_pc u) eqn:X; [reflexivity|..]; exfalso;
  (assert (NU : p_pc u <> POut) by (rewrite X; discriminate);
   assert (T : nth_error (pl_th s) i = Some t) by (rewrite E, nth_error_app2 by lia; subst i; rewrite Nat.sub_diag; reflexivity);
   destruct U as [U|U]; apply In_nth_error in U; destruct U as [j U];
   [ assert (j < length a)%nat by (apply nth_error_Some; congruence);
     assert (V : nth_error (pl_th s) j = Some u) by (rewrite E, nth_error_app1 by lia; exact U);
     pose proof (O i j t u T V NT NU); lia
   | assert (V : nth_error (pl_th s) (length a + S j) = Some u) by (rewrite E, nth_error_app2 by lia; replace (length a + S j - length a)%nat with (S j) by lia; exact U);
     pose proof (O i _ t u T V NT NU); lia ]).
Qed.

Lemma pstep_inv : forall s i o s', one_inside s -> pinv s -> pstep cap s i o = Some s' -> pinv s'.
Proof.
  intros s i o s' O (I1 & I2 & I3 & I5 & I4) E. unfold pstep in E. destruct (nth_error (pl_th s) i) as [t|] eqn:T; [|discriminate]. cbv zeta in E.
  assert (SP : forall p, exists a b, pl_th s = a ++ t :: b /\ set_pt (pl_th s) i p = a ++ p :: b /\ length a = i) by (intros; apply set_pt_split; exact T).
  assert (OUT : p_pc t <> POut -> forall a b, pl_th s = a ++ t :: b -> length a = i -> forall u, In u a \/ In u b -> p_pc u = POut).
  { intros. eapply others_out; eauto. }
  unfold pinv, held_once, psee in *. pose proof (I4 t (nth_error_In _ _ T)) as PT. unfold pcok in PT.
  destruct (p_pc t) eqn:PC; destruct o as [| |h]; try discriminate E.
  - injection E as <-. cbn [pl_th pl_init pl_used]. destruct (SP (mkpt PChk (p_own t) (p_fails t))) as (a & b & X & -> & L).
    rewrite !owns. cbn [p_own]. rewrite X, owns in I1, I2, I3, I5. split; [exact I1|]. split; [exact I2|]. split; [exact I3|]. split; [exact I5|].
    intros u U. apply in_app_or in U. destruct U as [U|[<-|U]]; [|exact Logic.I|]; unfold pcok, psee; cbn [pl_th pl_init pl_used]; rewrite owns; cbn [p_own];
      rewrite <- owns, <- X; apply I4; rewrite X; apply in_or_app; simpl; auto.
  - destruct (existsb (Z.eqb h) (p_own t)) eqn:EX; [|discriminate]. injection E as <-. cbn [pl_th pl_init pl_used].
    destruct (SP (mkpt POut (drop1 h (p_own t)) (p_fails t))) as (a & b & X & -> & L). rewrite !owns. cbn [p_own]. rewrite X, owns in I1, I2, I3, I5.
    apply existsb_exists in EX. destruct EX as (h' & H1 & H2). assert (h' = h) by lia. subst h'.
    pose proof (drop1_perm h _ H1) as D.
    assert (P : Permutation (concat (map p_own a) ++ p_own t ++ concat (map p_own b)) (h :: (concat (map p_own a) ++ drop1 h (p_own t) ++ concat (map p_own b)))).
    { eapply Permutation_trans; [apply Permutation_app_head, Permutation_app_tail, D|]. simpl. symmetry. apply Permutation_middle. }
    assert (ND : NoDup (h :: (concat (map p_own a) ++ drop1 h (p_own t) ++ concat (map p_own b)))) by (eapply Permutation_NoDup; eauto).
    apply NoDup_cons_iff in ND. destruct ND as [ND1 ND2]. split; [exact ND2|].
    assert (HB : 0 <= h < cap) by (apply I2; apply in_or_app; right; apply in_or_app; left; exact H1).
    replace ((0 <=? h) && (h <? cap)) with true by lia. split.
    { intros k K. assert (k <> h) by (intros ->; contradiction).
      assert (K' : In k (concat (map p_own a) ++ p_own t ++ concat (map p_own b))) by (eapply Permutation_in; [symmetry; exact P|right; exact K]).
      destruct (I2 k K') as [K1 K2]. split; [exact K1|]. unfold pupd. replace (k =? h) with false by lia. exact K2. }
    assert (NE : pl_init s = true).
    { destruct (pl_init s); [reflexivity|]. specialize (I3 eq_refl). rewrite I3 in I2. rewrite I3 in P. apply Permutation_nil in P. discriminate P. }
    split; [intros F; congruence|]. split.
    { intros k K. unfold pupd in K. destruct (k =? h) eqn:KH; [discriminate K|]. specialize (I5 k K).
      apply (Permutation_in _ P) in I5. destruct I5 as [I5|I5]; [lia|exact I5]. }
    intros u U. assert (UU : u = mkpt POut (drop1 h (p_own t)) (p_fails t) \/ In u (pl_th s)).
    { rewrite X. apply in_app_or in U. destruct U as [U|[U|U]]; [right|left; auto|right]; apply in_or_app; simpl; auto. }
    destruct UU as [->|UU]; [exact Logic.I|]. specialize (I4 u UU). unfold pcok in *. destruct (p_pc u); cbn [pl_init pl_used] in *; auto; try (destruct I4; congruence).
    destruct I4 as (A & B & C). split; [exact A|]. split; [|exact C]. unfold pupd. destruct (i0 =? h); auto.
  - injection E as <-. cbn [pl_th pl_init pl_used]. destruct (SP (mkpt (if pl_init s then PScan 0 else PFill 0) (p_own t) (p_fails t))) as (a & b & X & -> & L).
    rewrite !owns. cbn [p_own]. rewrite X, owns in I1, I2, I3, I5. split; [exact I1|]. split; [exact I2|]. split; [exact I3|]. split; [exact I5|].
    assert (NO : PChk <> POut) by discriminate. specialize (OUT NO a b X L).
    intros u U. apply in_app_or in U. destruct U as [U|[<-|U]].
    + unfold pcok. rewrite (OUT u) by auto. exact Logic.I.
    + unfold pcok, psee. cbn [p_pc pl_th pl_init pl_used]. destruct (pl_init s) eqn:IN; [split; [lia|reflexivity]|]. rewrite owns. cbn [p_own]. auto.
    + unfold pcok. rewrite (OUT u) by auto. exact Logic.I.
  - destruct PT as [PT1 PT2]. destruct (i0 <? cap) eqn:C; injection E as <-; cbn [pl_th pl_init pl_used].
    + destruct (SP (mkpt (PFill (i0 + 1)) (p_own t) (p_fails t))) as (a & b & X & -> & L).
      unfold psee in PT1. rewrite X, owns in PT1, I1, I2, I3, I5. rewrite !owns. cbn [p_own]. rewrite PT1 in I1, I2, I3, I5. rewrite PT1. split; [constructor|]. split; [intros k []|]. split; [auto|]. split; [first [exact I5|intros k K; apply I5; unfold pupd in K; destruct (k =? i0); [discriminate K|exact K]]|].
      assert (NO : PFill i0 <> POut) by discriminate. specialize (OUT NO a b X L).
      intros u U. apply in_app_or in U. destruct U as [U|[<-|U]]; unfold pcok; [rewrite (OUT u) by auto; exact Logic.I| |rewrite (OUT u) by auto; exact Logic.I].
      cbn [p_pc pl_init]. split; [|exact PT2]. unfold psee. cbn [pl_th]. rewrite owns. exact PT1.
    + destruct (SP (mkpt PSet (p_own t) (p_fails t))) as (a & b & X & -> & L).
      unfold psee in PT1. rewrite X, owns in PT1, I1, I2, I3, I5. rewrite !owns. cbn [p_own]. rewrite PT1 in I1, I2, I3, I5. rewrite PT1. split; [constructor|]. split; [intros k []|]. split; [auto|]. split; [first [exact I5|intros k K; apply I5; unfold pupd in K; destruct (k =? i0); [discriminate K|exact K]]|].
      assert (NO : PFill i0 <> POut) by discriminate. specialize (OUT NO a b X L).
      intros u U. apply in_app_or in U. destruct U as [U|[<-|U]]; unfold pcok; [rewrite (OUT u) by auto; exact Logic.I| |rewrite (OUT u) by auto; exact Logic.I].
      cbn [p_pc pl_init]. split; [|exact PT2]. unfold psee. cbn [pl_th]. rewrite owns. exact PT1.
  - destruct PT as [PT1 PT2]. injection E as <-. cbn [pl_th pl_init pl_used].
    destruct (SP (mkpt (PScan 0) (p_own t) (p_fails t))) as (a & b & X & -> & L).
    unfold psee in PT1. rewrite X, owns in PT1, I1, I2, I3, I5. rewrite !owns. cbn [p_own]. rewrite PT1 in I1, I2, I3, I5. rewrite PT1. split; [constructor|]. split; [intros k []|]. split; [auto|]. split; [first [exact I5|intros k K; apply I5; unfold pupd in K; destruct (k =? i0); [discriminate K|exact K]]|].
    assert (NO : PSet <> POut) by discriminate. specialize (OUT NO a b X L).
    intros u U. apply in_app_or in U. destruct U as [U|[<-|U]]; unfold pcok; [rewrite (OUT u) by auto; exact Logic.I| |rewrite (OUT u) by auto; exact Logic.I].
    cbn [p_pc pl_init]. split; [lia|reflexivity].
  - destruct PT as [PT1 PT2]. assert (NO : PScan i0 <> POut) by discriminate. destruct (i0 <? cap) eqn:C; injection E as <-; cbn [pl_th pl_init pl_used].
    + destruct (SP (mkpt (if pl_used s i0 then PScan (i0 + 1) else PTake i0) (p_own t) (p_fails t))) as (a & b & X & -> & L).
      rewrite X, owns in I1, I2, I3, I5. rewrite !owns. cbn [p_own]. split; [exact I1|]. split; [exact I2|]. split; [exact I3|]. split; [exact I5|].
      specialize (OUT NO a b X L).
      intros u U. apply in_app_or in U. destruct U as [U|[<-|U]]; unfold pcok; [rewrite (OUT u) by auto; exact Logic.I| |rewrite (OUT u) by auto; exact Logic.I].
      cbn [p_pc pl_init pl_used]. destruct (pl_used s i0) eqn:US; [split; [lia|exact PT2]|]. split; [lia|]. split; [exact US|exact PT2].
    + destruct (SP (mkpt POut (p_own t) (S (p_fails t)))) as (a & b & X & -> & L).
      rewrite X, owns in I1, I2, I3, I5. rewrite !owns. cbn [p_own]. split; [exact I1|]. split; [exact I2|]. split; [exact I3|]. split; [exact I5|].
      specialize (OUT NO a b X L).
      intros u U. apply in_app_or in U. destruct U as [U|[<-|U]]; unfold pcok; [rewrite (OUT u) by auto; exact Logic.I|exact Logic.I|rewrite (OUT u) by auto; exact Logic.I].
  - destruct PT as (PT1 & PT2 & PT3). injection E as <-. cbn [pl_th pl_init pl_used].
    destruct (SP (mkpt POut (i0 :: p_own t) (p_fails t))) as (a & b & X & -> & L).
    rewrite X, owns in I1, I2, I3, I5. rewrite !owns. cbn [p_own].
    assert (NI : ~ In i0 (concat (map p_own a) ++ p_own t ++ concat (map p_own b))) by (intros H; destruct (I2 _ H); congruence).
    assert (P : Permutation (i0 :: (concat (map p_own a) ++ p_own t ++ concat (map p_own b))) (concat (map p_own a) ++ (i0 :: p_own t) ++ concat (map p_own b))).
    { simpl. apply Permutation_middle. }
    split; [eapply Permutation_NoDup; [exact P|constructor; auto]|]. split.
    { intros k K. apply (Permutation_in _ (Permutation_sym P)) in K. unfold pupd. destruct K as [<-|K].
      - split; [lia|]. rewrite Z.eqb_refl. reflexivity.
      - destruct (I2 k K) as [A B]. split; [exact A|]. destruct (k =? i0); auto. }
    split; [intros F; congruence|]. split.
    { intros k K. apply (Permutation_in _ P). unfold pupd in K. destruct (k =? i0) eqn:KI; [left; lia|right; auto]. }
    assert (NO : PTake i0 <> POut) by discriminate. specialize (OUT NO a b X L).
    intros u U. apply in_app_or in U. destruct U as [U|[<-|U]]; unfold pcok; [rewrite (OUT u) by auto; exact Logic.I|exact Logic.I|rewrite (OUT u) by auto; exact Logic.I].
Qed.

Lemma pstart_inv : forall n, pinv (pstart n).
Proof.
  intros n. assert (E : concat (psee (pstart n)) = []).
  { unfold psee, pstart. cbn [pl_th]. induction n; simpl; auto. }
  unfold pinv, held_once. rewrite E. split; [constructor|]. split; [intros h []|]. split; [auto|]. split; [discriminate|].
  intros t H. apply repeat_spec in H. subst t. exact Logic.I.
Qed.
Lemma pstates_inv : forall l s ss, pinv s -> pstates cap s l = Some ss -> Forall one_inside ss -> Forall pinv ss.
Proof.
  induction l as [|a l IH]; intros s ss I0 E O; simpl in E. { injection E as <-. auto. }
  destruct (pstep cap s (fst a) (snd a)) as [s1|] eqn:E1; [|discriminate]. destruct (pstates cap s1 l) as [q|] eqn:E2; [|discriminate]. injection E as <-.
  inversion O; subst. constructor; [exact I0|]. apply (IH s1 q); auto. eapply pstep_inv; eauto.
Qed.

(** C48 in part: if calls of sis_wait_malloc do not overlap (releases may), no handle has two owners *)
Theorem C48_partial : forall n l ss, pstates cap (pstart n) l = Some ss -> Forall one_inside ss ->
  Forall (fun s => held_once (psee s) /\ in_pool cap (psee s)) ss.
Proof.
  intros n l ss E O. pose proof (pstates_inv l _ ss (pstart_inv n) E O) as I0. apply (Forall_impl _) with (2 := I0).
  intros s (I1 & I2 & _). split; [exact I1|]. intros h H. apply (I2 h H).
Qed.

(** a call that runs alone gets a handle unless [cap] are held *)
Definition gos (k i : nat) : list (nat * pop) := repeat (i, PGo) k.
Lemma prun_app : forall l1 l2 s, prun cap s (l1 ++ l2) = match prun cap s l1 with Some s' => prun cap s' l2 | None => None end.
Proof. induction l1 as [|a l1 IH]; intros; simpl; [reflexivity|]. destruct (pstep cap s (fst a) (snd a)); auto. Qed.

Lemma pt_at : forall a (t : pth) b, nth_error (a ++ t :: b) (length a) = Some t.
Proof. intros. rewrite nth_error_app2 by lia. rewrite Nat.sub_diag. reflexivity. Qed.
Lemma pt_set : forall a (t t' : pth) b, set_pt (a ++ t :: b) (length a) t' = a ++ t' :: b.
Proof. induction a; simpl; intros; [reflexivity|]. f_equal. auto. Qed.

Lemma fill_run : forall k i u a b own fl, 0 <= i -> i + Z.of_nat k = cap -> exists u',
  prun cap (mkpool false u (a ++ mkpt (PFill i) own fl :: b)) (gos (k + 1) (length a)) = Some (mkpool false u' (a ++ mkpt PSet own fl :: b)) /\
  forall j, u' j = if (i <=? j) && (j <? cap) then false else u j.
Proof.
  induction k as [|k IH]; intros i u a b own fl B C.
  - exists u. split; [|intros j; replace ((i <=? j) && (j <? cap)) with false by lia; reflexivity].
    simpl. unfold pstep. cbn [pl_th]. rewrite pt_at. cbn [p_pc p_own p_fails pl_init pl_used]. replace (i <? cap) with false by lia. rewrite pt_set. reflexivity.
  - destruct (IH (i + 1) (pupd u i false) a b own fl) as (u' & E & F); [lia|lia|]. exists u'. split.
    + replace (S k + 1)%nat with (S (k + 1)) by lia. unfold gos. cbn [repeat prun fst snd]. unfold pstep. cbn [pl_th]. rewrite pt_at. cbn [p_pc p_own p_fails pl_init pl_used].
      replace (i <? cap) with true by lia. rewrite pt_set. exact E.
    + intros j. rewrite F. unfold pupd. destruct (j =? i) eqn:J.
      * destruct ((i + 1 <=? j) && (j <? cap)); [|replace ((i <=? j) && (j <? cap)) with true by lia]; [replace ((i <=? j) && (j <? cap)) with true by lia|]; reflexivity.
      * replace ((i + 1 <=? j) && (j <? cap)) with ((i <=? j) && (j <? cap)) by lia. reflexivity.
Qed.

Lemma scan_run : forall k i u a b own fl, 0 <= i -> i + Z.of_nat k = cap -> exists m s',
  prun cap (mkpool true u (a ++ mkpt (PScan i) own fl :: b)) (gos m (length a)) = Some s' /\
  ((exists h, i <= h < cap /\ u h = false /\ pl_th s' = a ++ mkpt POut (h :: own) fl :: b) \/
   ((forall h, i <= h < cap -> u h = true) /\ pl_th s' = a ++ mkpt POut own (S fl) :: b)).
Proof.
  induction k as [|k IH]; intros i u a b own fl B C.
  - exists 1%nat. simpl. unfold pstep. cbn [pl_th]. rewrite pt_at. cbn [p_pc p_own p_fails pl_init pl_used]. replace (i <? cap) with false by lia. rewrite pt_set.
    eexists. split; [reflexivity|]. right. cbn [pl_th]. split; [intros; lia|reflexivity].
  - destruct (u i) eqn:U.
    + destruct (IH (i + 1) u a b own fl) as (m & s' & E & F); [lia|lia|]. exists (S m), s'. split.
      * unfold gos. cbn [repeat prun fst snd]. unfold pstep. cbn [pl_th]. rewrite pt_at. cbn [p_pc p_own p_fails pl_init pl_used]. replace (i <? cap) with true by lia. rewrite pt_set, U. exact E.
      * destruct F as [(h & H1 & H2)|[F1 F2]]; [left; exists h; split; [lia|exact H2]|right]. split; [|exact F2]. intros h H. destruct (Z.eq_dec h i); [congruence|apply F1; lia].
    + exists 2%nat. unfold gos. cbn [repeat prun fst snd]. unfold pstep at 1. cbn [pl_th]. rewrite pt_at. cbn [p_pc p_own p_fails pl_init pl_used]. replace (i <? cap) with true by lia. rewrite pt_set, U.
      unfold pstep. cbn [pl_th]. rewrite pt_at. cbn [p_pc p_own p_fails pl_init pl_used]. rewrite pt_set. eexists. split; [reflexivity|]. left. exists i. cbn [pl_th]. split; [lia|auto].
Qed.

Lemma prun_cons : forall s x l, prun cap s (x :: l) = match pstep cap s (fst x) (snd x) with Some s' => prun cap s' l | None => None end.
Proof. reflexivity. Qed.

Theorem C48_call_partial : forall n l ss s i t, 0 <= cap -> pstates cap (pstart n) l = Some ss -> Forall one_inside ss -> In s ss ->
  Forall (fun t => p_pc t = POut) (pl_th s) -> nth_error (pl_th s) i = Some t ->
  exists m s' t', prun cap s ((i, PCall) :: gos m i) = Some s' /\ nth_error (pl_th s') i = Some t' /\ p_pc t' = POut /\
    ((exists h, p_own t' = h :: p_own t /\ 0 <= h < cap /\ ~ In h (concat (psee s))) \/
     (p_fails t' = S (p_fails t) /\ forall h, 0 <= h < cap -> In h (concat (psee s)))).
Proof.
  intros n l ss s i t CP E O IS AO T. pose proof (pstates_inv l _ ss (pstart_inv n) E O) as I0. rewrite Forall_forall in I0. destruct (I0 s IS) as (I1 & I2 & I3 & I5 & I4). clear I0.
  assert (TO : p_pc t = POut) by (rewrite Forall_forall in AO; apply AO; eapply nth_error_In; eauto).
  destruct (set_pt_split _ _ _ (mkpt PChk (p_own t) (p_fails t)) T) as (a & b & X & Y & L).
  set (own := p_own t) in *. set (fl := p_fails t) in *.
  assert (FIN : forall u u' s0, (forall h, 0 <= h < cap -> u' h = false -> pl_used s h = false) -> (forall h, 0 <= h < cap -> u' h = true -> pl_used s h = true) -> u = u' ->
     (exists k0, prun cap s ((i, PCall) :: gos k0 i) = Some s0) -> s0 = mkpool true u (a ++ mkpt (PScan 0) own fl :: b) ->
     exists m s' t', prun cap s ((i, PCall) :: gos m i) = Some s' /\ nth_error (pl_th s') i = Some t' /\ p_pc t' = POut /\
       ((exists h, p_own t' = h :: own /\ 0 <= h < cap /\ ~ In h (concat (psee s))) \/ (p_fails t' = S fl /\ forall h, 0 <= h < cap -> In h (concat (psee s))))).
  { intros u u' s0 F1 F2 -> (k0 & R0) ->. destruct (scan_run (Z.to_nat cap) 0 u' a b own fl) as (m & s' & R & C); [lia|lia|].
    destruct C as [(h & H1 & H2 & H3)|[H1 H3]].
    - exists (k0 + m)%nat, s', (mkpt POut (h :: own) fl). split.
      { unfold gos. rewrite repeat_app, app_comm_cons, prun_app. unfold gos in R0. rewrite R0. rewrite <- L. exact R. }
      rewrite H3, <- L, pt_at. split; [reflexivity|]. split; [reflexivity|]. left. exists h. split; [reflexivity|]. split; [lia|].
      intros H. destruct (I2 h H) as [_ U]. rewrite (F1 h) in U; [discriminate|lia|exact H2].
    - exists (k0 + m)%nat, s', (mkpt POut own (S fl)). split.
      { unfold gos. rewrite repeat_app, app_comm_cons, prun_app. unfold gos in R0. rewrite R0. rewrite <- L. exact R. }
      rewrite H3, <- L, pt_at. split; [reflexivity|]. split; [reflexivity|]. right. split; [reflexivity|]. intros h H. apply I5, F2; auto. }
  destruct (pl_init s) eqn:IN.
  - eapply (FIN (pl_used s) (pl_used s)); [auto|auto|reflexivity| |reflexivity]. exists 1%nat. unfold gos. cbn [repeat]. rewrite prun_cons. cbn [fst snd]. unfold pstep. rewrite T, TO. cbv zeta. fold own fl. rewrite Y.
    rewrite prun_cons. cbn [fst snd]. unfold pstep. cbn [pl_th]. rewrite <- L, pt_at. cbn [p_pc p_own p_fails pl_init pl_used]. rewrite pt_set, IN. reflexivity.
  - destruct (fill_run (Z.to_nat cap) 0 (pl_used s) a b own fl) as (u' & R & F); [lia|lia|].
    assert (NU : forall h, pl_used s h = false). { intros h. destruct (pl_used s h) eqn:U; [|reflexivity]. apply I5 in U. rewrite (I3 eq_refl) in U. destruct U. }
    eapply (FIN u' u'); [auto| |reflexivity| |reflexivity].
    { intros h H U. rewrite F in U. rewrite NU in U. destruct ((0 <=? h) && (h <? cap)); discriminate U. }
    exists (1 + (Z.to_nat cap + 1) + 1)%nat. unfold gos. rewrite (repeat_app (i, PGo) (1 + (Z.to_nat cap + 1)) 1), (repeat_app (i, PGo) 1 (Z.to_nat cap + 1)). unfold gos in R. set (rr := repeat (length a, PGo) (Z.to_nat cap + 1)) in R. rewrite <- L in T |- *. fold rr. rewrite L in T |- *. cbn [repeat]. rewrite prun_cons. cbn [fst snd]. unfold pstep. rewrite T, TO. cbv zeta. fold own fl. rewrite Y.
    cbn [app]. rewrite prun_cons. cbn [fst snd]. unfold pstep. cbn [pl_th]. rewrite <- L, pt_at. cbn [p_pc p_own p_fails pl_init pl_used]. rewrite pt_set, IN.
    rewrite prun_app, R. simpl. unfold pstep. cbn [pl_th]. rewrite pt_at. cbn [p_pc p_own p_fails pl_init pl_used]. rewrite pt_set. reflexivity.
Qed.

(** two threads in sis_wait_malloc at once get the same handle *)
Theorem C48_race : 1 <= cap -> exists l s, prun cap (pstart 2) l = Some s /\ ~ held_once (psee s).
Proof.
  intros CP. destruct (fill_run (Z.to_nat cap) 0 (fun _ => false) [] [mkpt POut [] 0] [] 0) as (u' & R & F); [lia|lia|]. cbn [app length] in R.
  exists ((0%nat, PCall) :: gos 1 0 ++ gos (Z.to_nat cap + 1) 0 ++ gos 1 0 ++ [(1%nat, PCall); (1%nat, PGo); (0%nat, PGo); (1%nat, PGo); (0%nat, PGo); (1%nat, PGo)]).
  assert (U : u' 0 = false) by (rewrite F; destruct ((0 <=? 0) && (0 <? cap)); reflexivity).
  eexists. split.
  - unfold pstart. cbn [repeat]. rewrite prun_cons. cbn. rewrite prun_app, R. cbn. replace (0 <? cap) with true by lia. rewrite U. cbn. replace (0 <? cap) with true by lia. rewrite U. cbn. reflexivity.
  - unfold held_once, psee. cbn. intros H. inversion H as [|? ? H1 H2]; subst. apply H1. left. reflexivity.
Qed.
End P.

Theorem C48_race_refuted : exists l s, prun 65535 (pstart 2) l = Some s /\ ~ held_once (psee s).
Proof. apply C48_race. lia. Qed.

Example C48_ok : exists ss, pstates 3 (pstart 2) ([(0%nat, PCall)] ++ gos 8 0 ++ [(1%nat, PCall)] ++ gos 4 1 ++ [(0%nat, PFree 0); (1%nat, PCall)] ++ gos 3 1) = Some ss /\
  Forall one_inside ss /\ psee (last ss (pstart 2)) = [[]; [0; 1]] /\ pl_init (last ss (pstart 2)) = true.
Proof.
  eexists. split; [vm_compute; reflexivity|]. split; [|split; reflexivity].
  repeat constructor; intros [|[|i]] [|[|j]] t u A B NA NB; try reflexivity; simpl in A, B; try discriminate A; try discriminate B;
    try (destruct i; discriminate A); try (destruct j; discriminate B); injection A as <-; injection B as <-; simpl in NA, NB; congruence.
Qed.
Example C48_race_ok : exists s, prun 1 (pstart 2) ((0%nat, PCall) :: gos 4 0 ++ [(1%nat, PCall); (1%nat, PGo); (0%nat, PGo); (1%nat, PGo); (0%nat, PGo); (1%nat, PGo)]) = Some s /\ psee s = [[0]; [0]].
Proof. eexists. split; [vm_compute; reflexivity|]. reflexivity. Qed.

Print Assumptions C48_partial.
Print Assumptions C48_call_partial.
Print Assumptions C48_race.
Print Assumptions C48_race_refuted.
