(** C17, C18: writing into an ordered series, and saving it. *)
From Verif Require Import Base S_fmap M_fmap L_fmap P_fmap.
From Coq Require Import ZifyBool ZifyNat.

Section P.
Context {R : Type}.
Variables (mi : R -> Z) (sign : R -> Z) (same : R -> R -> bool) (quot : Z -> Z -> Z).

Lemma in_order_app : forall (a b : list R), in_order mi (a ++ b) <->
  in_order mi a /\ in_order mi b /\ (forall x y, In x a -> In y b -> mi x <= mi y).
Proof.
  induction a as [|z a IH]; intros b; simpl.
  - split; [intros H; split; [constructor|split; [exact H|intros x y []]]|intros (_ & H & _); exact H].
  - unfold in_order in *. simpl. split.
    + intros H. apply StronglySorted_inv in H. destruct H as [H F]. apply IH in H. destruct H as (H1 & H2 & H3).
      rewrite Forall_forall in F. split; [|split; [exact H2|]].
      * constructor; auto. apply Forall_forall. intros t It. apply F. rewrite map_app. apply in_or_app; auto.
      * intros x y [<-|Ix] Iy; auto. apply F. rewrite map_app. apply in_or_app; right. apply in_map; auto.
    + intros (H1 & H2 & H3). apply StronglySorted_inv in H1. destruct H1 as [H1 F]. rewrite Forall_forall in F.
      constructor. { apply IH. repeat split; auto. }
      apply Forall_forall. intros t It. rewrite map_app in It. apply in_app_or in It. destruct It as [It|It]; auto.
      apply in_map_iff in It. destruct It as (y & <- & Iy). apply H3; auto.
Qed.
Lemma in_order_one : forall x, in_order mi [x].
Proof. intros. unfold in_order. simpl. constructor; constructor. Qed.
Lemma in_order_split : forall (l : list R) n, in_order mi l -> in_order mi (firstn n l) /\ in_order mi (skipn n l).
Proof. intros l n O. rewrite <- (firstn_skipn n l) in O. apply in_order_app in O. tauto. Qed.

Lemma in_firstn_time : forall (l : list R) m n y, in_order mi l -> Z.of_nat n <= upto mi m l -> In y (firstn n l) -> mi y <= m.
Proof.
  intros l m n y O H I0. apply In_nth_error in I0. destruct I0 as (k & E).
  assert (K : (k < n)%nat).
  { assert (k < length (firstn n l))%nat by (apply nth_error_Some; congruence). rewrite firstn_length in H0. lia. }
  rewrite nth_error_firstn_lt in E by auto. destruct (nth_mindex mi l k y E) as (M & B).
  pose proof (upto_nth mi l m (Z.of_nat k) O B). lia.
Qed.
Lemma in_skipn_time : forall (l : list R) m n y, in_order mi l -> below mi m l <= Z.of_nat n -> In y (skipn n l) -> m <= mi y.
Proof.
  intros l m n y O H I0. apply In_nth_error in I0. destruct I0 as (k & E). rewrite nth_error_skipn' in E.
  destruct (nth_mindex mi l _ y E) as (M & B). pose proof (below_nth mi l m _ O B). lia.
Qed.

Lemma put_ordered : forall (l : list R) x n, in_order mi l -> below mi (mi x) l <= Z.of_nat n <= upto mi (mi x) l ->
  in_order mi (firstn n l ++ x :: skipn n l) /\ put_in x l (firstn n l ++ x :: skipn n l).
Proof.
  intros l x n O H. destruct (in_order_split l n O) as (O1 & O2). split.
  - apply in_order_app. split; [exact O1|]. split.
    + change (x :: skipn n l) with ([x] ++ skipn n l). apply in_order_app. split; [apply in_order_one|]. split; [exact O2|].
      intros y z [<-|[]] Iz. apply (in_skipn_time l _ n z); auto. lia.
    + intros y z Iy [<-|Iz].
      * apply (in_firstn_time l _ n y); auto. lia.
      * assert (mi y <= mi x) by (apply (in_firstn_time l _ n y); auto; lia).
        assert (mi x <= mi z) by (apply (in_skipn_time l _ n z); auto; lia). lia.
  - exists (firstn n l), (skipn n l). rewrite firstn_skipn. auto.
Qed.
Lemma insert_at_eq : forall (l : list R) x i, 0 <= i <= count l -> insert_at l i x = firstn (Z.to_nat i) l ++ x :: skipn (Z.to_nat i) l.
Proof.
  intros l x i H. unfold insert_at. pose proof (count_nonneg l). destruct ((count l <? 1) || (i >? count l - 1)) eqn:E.
  - assert (i = count l) by lia. subst i. unfold count. rewrite Nat2Z.id, firstn_all, skipn_all. reflexivity.
  - cbv zeta. rewrite Z.max_r by lia. reflexivity.
Qed.
Lemma push_eq : forall (l : list R) x, l ++ [x] = firstn (Z.to_nat (count l)) l ++ x :: skipn (Z.to_nat (count l)) l.
Proof. intros. unfold count. rewrite Nat2Z.id, firstn_all, skipn_all. reflexivity. Qed.

Hypothesis Q0 : nonneg_quot quot.

(** find_tail, find_head: where they point *)
Lemma find_tail_ok : forall u l m, in_order mi l -> 1 <= count l ->
  find_tail mi quot u l m = Some (if below mi m l <? upto mi m l
    then (if upto mi m l =? count l then count l else upto mi m l - 1)
    else if below mi m l =? 0 then -1 else below mi m l).
Proof.
  intros u l m O C. unfold find_tail. pose proof (goto_range quot Q0 u l m C) as G.
  destruct (goto quot u l m <? 0) eqn:G0; [lia|]. pose proof (sees_ordered mi l m O) as SE.
  apply (find_loop_ok mi l m _ _ SE).
  - intros k K. pose proof (below_upto mi l m). apply (scan_fwd_ok mi l m _ _ SE); [lia|]. unfold count in *. lia.
  - left. unfold count in *. lia.
Qed.
Lemma find_head_ok : forall u l m, in_order mi l -> 1 <= count l ->
  find_head mi quot u l m = Some (if (below mi m l =? 0) && (upto mi m l =? 0) then -1 else below mi m l).
Proof.
  intros u l m O C. unfold find_head. pose proof (goto_range quot Q0 u l m C) as G.
  destruct (goto quot u l m <? 0) eqn:G0; [lia|]. pose proof (sees_ordered mi l m O) as SE.
  rewrite (find_loop_ok mi l m _ _ SE _ (below mi m l)).
  - f_equal. pose proof (below_upto mi l m). destruct (below mi m l <? upto mi m l) eqn:A, (below mi m l =? 0) eqn:B, (upto mi m l =? 0) eqn:D; simpl; lia.
  - intros k K. pose proof (below_upto mi l m). apply (scan_back_ok mi l m _ _ SE); [lia|]. unfold count in *. lia.
  - left. unfold count in *. lia.
Qed.

Lemma mindex_one_ok : forall u l x, in_order mi l -> 1 <= count l -> (forall y, In y l -> 0 <= mi y) ->
  exists l', mindex_one mi quot u l (mindex mi l (count l - 1)) x = Some (l', mindex mi l' (count l' - 1)) /\
    in_order mi l' /\ put_in x l l'.
Proof.
  intros u l x O C T. set (m := mi x). set (lo := below mi m l). set (hi := upto mi m l).
  pose proof (below_upto mi l m) as B. fold lo hi in B.
  assert (PUSH : hi = count l -> exists l', Some (l ++ [x], mi x) = Some (l', mindex mi l' (count l' - 1)) /\ in_order mi l' /\ put_in x l l').
  { intros Hh. exists (l ++ [x]). split; [|].
    - do 2 f_equal. assert (Cn : count (l ++ [x]) - 1 = count l) by (unfold count; rewrite app_length; simpl; lia). rewrite Cn.
      destruct (mindex_nth mi (l ++ [x]) (count l)) as (y & E & M); [lia|]. rewrite M.
      unfold count in E. rewrite Nat2Z.id, nth_error_app2, Nat.sub_diag in E by lia. injection E as ->. reflexivity.
    - rewrite push_eq. apply put_ordered; auto. fold m lo hi. unfold count in *. lia. }
  assert (INS : forall i, lo <= i <= hi -> 0 <= i < count l ->
     exists l', Some (insert_at l i x, mindex mi l (count l - 1)) = Some (l', mindex mi l' (count l' - 1)) /\ in_order mi l' /\ put_in x l l').
  { intros i Hi Hc. exists (insert_at l i x). rewrite insert_at_eq by lia. split; [|apply put_ordered; auto; fold m lo hi; lia].
    do 2 f_equal. set (n := Z.to_nat i).
    destruct (mindex_nth mi l (count l - 1)) as (y & E & M); [lia|]. rewrite M.
    assert (Cn : count (firstn n l ++ x :: skipn n l) - 1 = count l).
    { unfold count. rewrite app_length. simpl. rewrite firstn_length, skipn_length. unfold count in Hc. lia. }
    rewrite Cn. destruct (mindex_nth mi (firstn n l ++ x :: skipn n l) (count l)) as (z & E' & M'); [lia|]. rewrite M'.
    f_equal. assert (Some z = Some y); [|congruence]. rewrite <- E, <- E'.
    assert (Ln : length (firstn n l) = n) by (apply firstn_length_le; unfold count in Hc; lia).
    rewrite nth_error_app2 by (rewrite Ln; unfold count in *; lia). rewrite Ln.
    replace (Z.to_nat (count l) - n)%nat with (S (Z.to_nat (count l - 1) - n)) by (unfold count in *; lia).
    simpl. rewrite nth_error_skipn'. f_equal. unfold count in *. lia. }
  unfold mindex_one. cbv zeta. fold m.
  pose proof (upto_nth mi l m (count l - 1) O ltac:(lia)) as UL. fold hi in UL.
  destruct (m >=? mindex mi l (count l - 1)) eqn:E. { apply PUSH. lia. }
  rewrite (find_tail_ok u l m O C). fold lo hi.
  destruct (lo <? hi) eqn:Q.
  - destruct (hi =? count l) eqn:Q1; [lia|]. destruct (hi - 1 >=? count l) eqn:Q2; [lia|]. destruct (hi - 1 <? 0) eqn:Q3; [lia|].
    destruct (mindex_of mi l 1 (hi - 1) =? m).
    + destruct (hi - 1 + 1 >=? count l) eqn:Q4; [lia|]. apply INS; lia.
    + apply INS; lia.
  - destruct (lo =? 0) eqn:Q1.
    + destruct (-1 >=? count l) eqn:Q2; [lia|]. simpl (-1 <? 0). apply INS; lia.
    + destruct (lo >=? count l) eqn:Q2; [lia|]. destruct (lo <? 0) eqn:Q3; [lia|].
      assert (P : mindex_of mi l 1 lo = 0) by (unfold mindex_of; replace ((lo + 1 >? 1) || (1 =? 0)) with true by lia; reflexivity).
      rewrite P. destruct (0 =? m) eqn:Q4.
      * exfalso. destruct (mindex_nth mi l 0) as (y & Ey & My); [lia|]. pose proof (below_nth mi l m 0 O). fold lo in H.
        assert (0 <= mi y) by (apply T; eapply nth_error_In; eauto). lia.
      * apply INS; lia.
Qed.

Lemma put_in_in : forall (x : R) l l', put_in x l l' -> forall y, In y l' <-> y = x \/ In y l.
Proof.
  intros x l l' (a & b & -> & ->) y. rewrite !in_app_iff. simpl. split; intros H; intuition congruence.
Qed.
Lemma put_in_count : forall (x : R) l l', put_in x l l' -> count l' = count l + 1.
Proof. intros x l l' (a & b & -> & ->). unfold count. rewrite !app_length. simpl. lia. Qed.
Lemma puts_in_perm : forall (xs l l' : list R), puts_in xs l l' -> Permutation l' (l ++ xs).
Proof.
  induction 1. { rewrite app_nil_r. auto. }
  rewrite IHputs_in. destruct H as (a & b & -> & ->).
  transitivity ((x :: a ++ b) ++ xs). { apply Permutation_app_tail. symmetry. apply Permutation_middle. }
  simpl. rewrite <- app_assoc. apply Permutation_cons_app with (l1 := a ++ b) (l2 := xs) (a := x) (l := a ++ b ++ xs).
  rewrite app_assoc. reflexivity.
Qed.

Lemma mindex_loop_ok : forall u batch l idx k, in_order mi l -> 1 <= count l ->
  (forall y, In y l \/ In y batch -> 0 <= mi y) ->
  exists l' idx', mindex_loop mi sign quot u l idx (mindex mi l (count l - 1)) k batch = Some (l', idx') /\
    in_order mi l' /\ puts_in batch l l'.
Proof.
  induction batch as [|x batch IH]; intros l idx k O C T.
  - exists l, idx. split; [reflexivity|]. split; [auto|constructor].
  - destruct (mindex_one_ok u l x O C) as (l1 & E & O1 & P1). { intros; apply T; auto. }
    simpl. rewrite E. destruct (add_idx idx k (sign x)) as [idx1 k1].
    pose proof (put_in_count x l l1 P1).
    destruct (IH l1 idx1 k1 O1) as (l2 & idx2 & E2 & O2 & P2). { lia. }
    { intros y [I0|I0]. - apply (put_in_in x l l1 P1) in I0. destruct I0 as [->|I0]; apply T; simpl; auto. - apply T; simpl; auto. }
    exists l2, idx2. split; [exact E2|]. split; [exact O2|]. econstructor; eauto.
Qed.

Lemma reidx_recs : forall u, fu_recs (reidx mi u) = fu_recs u.
Proof. reflexivity. Qed.

(** C17: a batch written into an ordered series: the records are put in, each at a place that keeps the order *)
Theorem C17_update : forall (u : funit) batch, fu_recs u <> [] -> in_order mi (fu_recs u) ->
  (forall x, In x (fu_recs u) \/ In x batch -> 0 <= mi x) ->
  exists u', update mi sign same quot false u batch = Some u' /\
    in_order mi (fu_recs u') /\ puts_in batch (fu_recs u) (fu_recs u') /\ Permutation (fu_recs u') (fu_recs u ++ batch).
Proof.
  intros u batch N O T. assert (C : 1 <= count (fu_recs u)).
  { destruct (fu_recs u); [congruence|]. unfold count; simpl; lia. }
  unfold update. destruct (count (fu_recs u) <? 1) eqn:C1; [lia|]. unfold mindex_update.
  destruct (mindex_loop_ok u batch (fu_recs u) (fu_idx u) (-1) O C T) as (l' & idx' & E & O' & P).
  rewrite E. eexists; split; [reflexivity|]. destruct (0 <? count batch); simpl; (split; [exact O'|split; [exact P|apply puts_in_perm; exact P]]).
Qed.
(** after a batch that is not empty the bounds of the series, which searches start from, are the
    times of its first and its last record *)
Theorem C17_bounds : forall (u : funit) batch, batch <> [] -> in_order mi (fu_recs u) ->
  (forall x, In x (fu_recs u) \/ In x batch -> 0 <= mi x) ->
  exists u' a b, update mi sign same quot false u batch = Some u' /\
    head (fu_recs u') = Some a /\ last (map Some (fu_recs u')) None = Some b /\ fu_start u' = mi a /\ fu_stop u' = mi b.
Proof.
  intros u batch N O T.
  assert (CB : 0 < count batch) by (destruct batch; [congruence | unfold count; simpl; lia]).
  assert (K : forall l idx s e st, l <> [] -> exists u' a b,
     Some (reidx mi (mkfunit l idx s e st)) = Some u' /\ head (fu_recs u') = Some a /\
     last (map Some (fu_recs u')) None = Some b /\ fu_start u' = mi a /\ fu_stop u' = mi b).
  { intros l idx s e st NE. destruct (exists_last NE) as (l0 & b & E). destruct l as [|a l1]; [congruence|].
    exists (reidx mi (mkfunit (a :: l1) idx s e st)), a, b.
    split; [reflexivity|]. rewrite reidx_recs. cbn [fu_recs]. split; [reflexivity|]. split.
    { rewrite E, map_app. cbn [map]. apply last_last. }
    unfold reidx. cbn [fu_recs fu_start fu_stop]. split.
    - unfold mindex, mindex_of, count. cbn [List.length]. rewrite (proj2 (Z.eqb_neq _ 0)) by lia.
      destruct (0 + 1 >? Z.of_nat (S (List.length l1))) eqn:E1; [lia|]. reflexivity.
    - unfold mindex, mindex_of. rewrite E. unfold count. rewrite app_length. cbn [List.length].
      rewrite (proj2 (Z.eqb_neq _ 0)) by lia.
      destruct (Z.of_nat (List.length l0 + 1) - 1 + 1 >? Z.of_nat (List.length l0 + 1)) eqn:E1; [lia|]. cbn [orb].
      replace (Z.to_nat (Z.of_nat (List.length l0 + 1) - 1)) with (List.length l0) by lia.
      rewrite nth_error_app2, Nat.sub_diag by lia. reflexivity. }
  unfold update. destruct (count (fu_recs u) <? 1) eqn:C1.
  - rewrite (proj2 (Z.ltb_lt _ _) CB). apply K. intro E. apply app_eq_nil in E. tauto.
  - unfold mindex_update.
    destruct (mindex_loop_ok u batch (fu_recs u) (fu_idx u) (-1) O ltac:(lia) T) as (l' & idx' & E & O' & P).
    rewrite E, (proj2 (Z.ltb_lt _ _) CB). apply K. apply puts_in_perm in P. intro X. rewrite X in P.
    apply Permutation_nil in P. apply app_eq_nil in P. tauto.
Qed.
(** a single record may also go into an empty series *)
Theorem C17_record : forall (u : funit) x, in_order mi (fu_recs u) ->
  (forall y, In y (fu_recs u) -> 0 <= mi y) -> 0 <= mi x ->
  exists u', update mi sign same quot false u [x] = Some u' /\
    in_order mi (fu_recs u') /\ put_in x (fu_recs u) (fu_recs u').
Proof.
  intros u x O T X. destruct (fu_recs u) as [|y l] eqn:E.
  - unfold update. rewrite E. eexists; split; [reflexivity|]. simpl. split; [apply in_order_one|]. exists [], []. auto.
  - destruct (C17_update u [x]) as (u' & E1 & O1 & P & _); rewrite ?E; auto; try discriminate.
    { intros z [I0|[<-|[]]]; auto. }
    exists u'. split; [exact E1|]. split; [exact O1|]. rewrite E in P. inversion P; subst. inversion H4; subst. assumption.
Qed.

(** a block read from the disk *)
Theorem C17_load : forall (u : funit) block search, in_order mi (fu_recs u) -> in_order mi block ->
  (forall x, In x block -> search <= mi x) ->
  (forall x y, In x (fu_recs u) -> In y block -> search <= mi x -> mi y <= mi x) ->
  exists l', load mi quot u block search = Some l' /\ in_order mi l' /\ exists a b, fu_recs u = a ++ b /\ l' = a ++ block ++ b.
Proof.
  intros u block search O Ob B1 B2. unfold load.
  destruct (Z_lt_le_dec (count (fu_recs u)) 1) as [C|C].
  - assert (E : fu_recs u = []) by (unfold count in C; destruct (fu_recs u); [reflexivity|simpl in C; lia]).
    unfold find_head, goto. rewrite E. simpl. exists block. split; [reflexivity|]. split; [exact Ob|]. exists [], []. split; [reflexivity|]. simpl. rewrite app_nil_r. reflexivity.
  - rewrite find_head_ok by auto. pose proof (below_upto mi (fu_recs u) search) as B. set (l := fu_recs u) in *. set (lo := below mi search l) in *.
    assert (G : exists l', Some (firstn (Z.to_nat lo) l ++ block ++ skipn (Z.to_nat lo) l) = Some l' /\ in_order mi l' /\
       exists a b, l = a ++ b /\ l' = a ++ block ++ b).
    { eexists; split; [reflexivity|]. destruct (in_order_split l (Z.to_nat lo) O) as (O1 & O2).
      assert (L1 : forall x, In x (firstn (Z.to_nat lo) l) -> mi x < search).
      { intros x I0. unfold lo in I0. rewrite <- filter_below in I0 by auto. apply filter_In in I0. lia. }
      assert (L2 : forall x, In x (skipn (Z.to_nat lo) l) -> search <= mi x /\ In x l).
      { intros x I0. unfold lo in I0. rewrite <- filter_from in I0 by auto. apply filter_In in I0. destruct I0. split; [lia|assumption]. }
      split.
      - apply in_order_app. split; [exact O1|]. split.
        + apply in_order_app. split; [exact Ob|]. split; [exact O2|]. intros x y Ix Iy. destruct (L2 y Iy). apply B2; auto.
        + intros x y Ix Iy. specialize (L1 x Ix). apply in_app_or in Iy. destruct Iy as [Iy|Iy].
          * specialize (B1 y Iy). lia. * destruct (L2 y Iy). lia.
      - exists (firstn (Z.to_nat lo) l), (skipn (Z.to_nat lo) l). rewrite firstn_skipn. auto. }
    destruct ((lo =? 0) && (upto mi search l =? 0)) eqn:Q.
    + destruct (-1 >=? count l) eqn:Q1; [lia|]. cbv zeta. rewrite Z.max_l by lia. replace 0 with lo by lia. exact G.
    + destruct (lo >=? count l) eqn:Q1.
      * replace (l ++ block) with (firstn (Z.to_nat lo) l ++ block ++ skipn (Z.to_nat lo) l); [exact G|].
        rewrite firstn_all2, skipn_all2 by (unfold count in *; lia). rewrite app_nil_r. reflexivity.
      * cbv zeta. rewrite Z.max_r by lia. exact G.
Qed.

(** with unique fields: order is kept; the record is put in, or put over one that agrees on these fields *)
Lemma vlist_ok : forall l x p, in_order mi l -> 1 <= count l -> below mi (mi x) l <= p -> (p <= upto mi (mi x) l \/ (p = count l + 1 /\ upto mi (mi x) l = count l)) -> 0 <= p ->
  in_order mi (vlist_add l x p) /\ put_in x l (vlist_add l x p).
Proof.
  intros l x p O C H1 H2 H3. pose proof (below_upto mi l (mi x)) as B. unfold vlist_add.
  destruct (p <? 0) eqn:E; [lia|]. destruct (p >=? count l) eqn:E1.
  - rewrite push_eq. apply put_ordered; auto. pose proof (count_nonneg l). lia.
  - rewrite insert_at_eq by lia. apply put_ordered; auto. lia.
Qed.

Lemma set_ordered : forall (l : list R) x i y, in_order mi l -> nth_error l (Z.to_nat i) = Some y -> 0 <= i ->
  below mi (mi x) l <= i <= upto mi (mi x) l -> same x y = true ->
  in_order mi (set_at l i x) /\ put_over same x l (set_at l i x).
Proof.
  intros l x i y O E I0 H S0. unfold set_at. set (n := Z.to_nat i) in *.
  assert (D : l = firstn n l ++ y :: skipn (n + 1) l).
  { replace (n + 1)%nat with (S n) by lia. rewrite <- (skipn_last l n y E). symmetry. apply firstn_skipn. }
  split.
  - destruct (in_order_split l n O) as (O1 & O2). destruct (in_order_split l (n + 1) O) as (_ & O3).
    apply in_order_app. split; [exact O1|]. split.
    + change (x :: skipn (n + 1) l) with ([x] ++ skipn (n + 1) l). apply in_order_app. split; [apply in_order_one|]. split; [exact O3|].
      intros a b [<-|[]] Ib. apply (in_skipn_time l _ (n + 1) b); auto. lia.
    + intros a b Ia [<-|Ib].
      * apply (in_firstn_time l _ n a); auto. lia.
      * assert (mi a <= mi x) by (apply (in_firstn_time l _ n a); auto; lia).
        assert (mi x <= mi b) by (apply (in_skipn_time l _ (n + 1) b); auto; lia). lia.
  - exists (firstn n l), y, (skipn (n + 1) l). auto.
Qed.

Lemma solely_loop_ok : forall fuel l x index, in_order mi l -> 1 <= count l ->
  let lo := below mi (mi x) l in let hi := upto mi (mi x) l in
  0 <= index -> lo <= index <= hi -> (lo = 0 -> index = hi - 1 \/ (index = hi /\ hi = count l)) ->
  forall i, i <= index -> -1 <= i < count l -> lo <= i + 1 -> i < Z.of_nat fuel ->
  let '(l', added) := solely_loop mi same fuel l x i index (mi x) in
  in_order mi l' /\ (if added then put_in x l l' else put_over same x l l').
Proof.
  induction fuel as [|f IH]; intros l x index O C lo hi H1 H2 H4 i Hi Hc Hl Hf; pose proof (below_upto mi l (mi x)) as B; fold lo hi in B.
  - assert (i = -1) by lia. subst i. simpl.
    assert (L0 : lo = 0) by lia. apply vlist_ok; auto; fold lo hi; specialize (H4 L0); lia.
  - simpl. destruct (0 <=? i) eqn:E.
    + destruct (mindex_nth mi l i) as (v & Ev & Mv); [lia|]. rewrite Ev.
      pose proof (below_nth mi l (mi x) i O ltac:(lia)) as BN. fold lo in BN.
      destruct (mi v <? mi x) eqn:E1.
      * apply vlist_ok; auto; fold lo hi; lia.
      * destruct (same x v) eqn:E2.
        -- apply (set_ordered l x i v); auto; fold lo hi; lia.
        -- apply IH; auto; fold lo hi; lia.
    + assert (i = -1) by lia. subst i. assert (L0 : lo = 0) by lia. apply vlist_ok; auto; fold lo hi; specialize (H4 L0); lia.
Qed.

Theorem C17_unique : forall (u : funit) l x, in_order mi l -> l <> [] ->
  exists o, find_tail mi quot u l (mi x) = Some o /\
    let '(l', added) := solely_one mi same l x o (mi x) in
    in_order mi l' /\ (if added then put_in x l l' else put_over same x l l').
Proof.
  intros u l x O N. assert (C : 1 <= count l). { destruct l; [congruence|]. unfold count; simpl; lia. }
  rewrite find_tail_ok by auto. eexists; split; [reflexivity|]. pose proof (below_upto mi l (mi x)) as B.
  set (lo := below mi (mi x) l) in *. set (hi := upto mi (mi x) l) in *. unfold solely_one.
  destruct (lo <? hi) eqn:Q.
  - destruct (hi =? count l) eqn:Q1.
    + destruct (count l <? 0) eqn:Q2; [lia|]. apply solely_loop_ok; auto; fold lo hi; unfold count in *; lia.
    + destruct (hi - 1 <? 0) eqn:Q2; [lia|]. apply solely_loop_ok; auto; fold lo hi; unfold count in *; lia.
  - destruct (lo =? 0) eqn:Q1.
    + simpl (-1 <? 0). cbv iota. unfold vlist_add. simpl (-1 <? 0). cbv iota. rewrite insert_at_eq by lia.
      apply put_ordered; auto. fold lo hi. lia.
    + destruct (lo <? 0) eqn:Q2; [lia|]. apply solely_loop_ok; auto; fold lo hi; unfold count in *; lia.
Qed.
End P.
