(** C16: queries of an ordered series by time are exact. *)
From Verif Require Import Base S_fmap M_fmap L_fmap.
From Coq Require Import ZifyBool ZifyNat.

Definition nonneg_quot (quot : Z -> Z -> Z) : Prop := forall a b, 0 <= a -> 1 < b -> 0 <= quot a b.
(** times fit in a signed 64 bit integer *)
Definition times_ok {R} (mi : R -> Z) (l : list R) : Prop := forall x, In x l -> 0 <= mi x < 2 ^ 63.
Definition is_int64 (z : Z) : Prop := - 2 ^ 63 <= z < 2 ^ 63.

Section P.
Context {R : Type}.
Variables (mi : R -> Z) (quot : Z -> Z -> Z).
Hypothesis Q0 : nonneg_quot quot.

Lemma goto_range : forall (u : @funit R) l m, 1 <= count l -> 0 <= goto quot u l m < count l.
Proof.
  intros u l m H. unfold goto.
  destruct (count l <? 1) eqn:E; [lia|].
  destruct (m <=? fu_start u) eqn:E1; [lia|]. destruct (fu_stop u <=? m) eqn:E2; [lia|].
  assert (0 <= (if 1 <? fu_step u then quot (m - fu_start u) (fu_step u) else 0)).
  { destruct (1 <? fu_step u) eqn:E3; [|lia]. apply Q0; lia. }
  cbv zeta. destruct ((if 1 <? fu_step u then quot (m - fu_start u) (fu_step u) else 0) >? count l - 1) eqn:E4; lia.
Qed.

Lemma range_head_ok : forall u l m lo hi, 1 <= count l -> sees mi l m lo hi ->
  range_head mi quot u l m = Some (if lo <? hi then (FIND_OK, lo) else if lo =? 0 then (HEAD_NONE, -1)
          else if lo =? count l then (TAIL_NONE, -1) else (FIND_AGO, lo - 1)).
Proof.
  intros. unfold range_head. apply head_loop_ok with (1 := H0). left.
  pose proof (goto_range u l m H). unfold count in *. lia.
Qed.
Lemma range_tail_ok : forall u l m lo hi, 1 <= count l -> sees mi l m lo hi ->
  range_tail mi quot u l m = Some (if lo <? hi then (FIND_OK, hi - 1) else if lo =? 0 then (HEAD_NONE, -1)
          else if lo =? count l then (TAIL_NONE, -1) else (FIND_AGO, lo - 1)).
Proof.
  intros. unfold range_tail. apply tail_loop_ok with (1 := H0). left.
  pose proof (goto_range u l m H). unfold count in *. lia.
Qed.

Lemma mindex_ok : forall l i, times_ok mi l -> 0 <= mindex mi l i < 2 ^ 63.
Proof.
  intros l i T. unfold mindex, mindex_of. destruct (_ || _); [lia|].
  destruct (nth_error l (Z.to_nat i)) eqn:E; [|lia]. apply T. eapply nth_error_In; eauto.
Qed.
Lemma mindex_first : forall l start, 1 <= count l -> start < 0 ->
  mindex mi l (Z.max 0 (count l + start)) = nth (Z.to_nat (Z.max 0 (count l + start))) (map mi l) 0.
Proof.
  intros l start H S0. destruct (mindex_nth mi l (Z.max 0 (count l + start))) as (x & E & M); [lia|].
  rewrite M. symmetry. apply nth_error_nth. apply map_nth_error. exact E.
Qed.
Lemma mindex_last : forall l, 1 <= count l -> mindex mi l (count l - 1) = last (map mi l) 0.
Proof.
  intros l H. destruct (mindex_nth mi l (count l - 1)) as (x & E & M); [lia|]. rewrite M.
  destruct (exists_last (l := l)) as (l' & y & ->). { intros ->. unfold count in H; simpl in H; lia. }
  rewrite map_app. simpl. rewrite last_last. unfold count in E. rewrite app_length in E. simpl in E.
  rewrite nth_error_app2 in E by lia.
  replace (Z.to_nat (Z.of_nat (length l' + 1) - 1) - length l')%nat with 0%nat in E by lia. injection E as ->. reflexivity.
Qed.

(** the positions of the answer *)
Lemma cmp_range_ok : forall u start stop ifprev, in_order mi (fu_recs u) -> times_ok mi (fu_recs u) ->
  is_int64 start -> is_int64 stop -> 1 <= count (fu_recs u) ->
  let l := fu_recs u in
  let s := first_time mi l start in let e := last_time mi l s stop in
  let lo := below mi s l in let hi := upto mi s l in let t := upto mi e l in
  let h := if (ifprev : bool) then (if lo <? hi then lo else if lo =? 0 then 0 else lo - 1) else lo in
  0 <= s < 2 ^ 63 /\ 0 <= e < 2 ^ 63 /\
  cmp_range mi quot u start stop ifprev = Some (if h <? t then Some (h, t - h) else None).
Proof.
  intros u start stop ifprev O T S1 S2 C l s e lo hi t h. fold l in O, T, C.
  assert (Es : (if start <=? -1 then to_s 64 (mindex mi l (Z.max 0 (count l + start))) else start) = s /\ 0 <= s < 2 ^ 63).
  { unfold s, first_time. destruct (start <=? -1) eqn:E1; destruct (start <? 0) eqn:E2; try lia.
    - change (Z.of_nat (length l)) with (count l). rewrite <- mindex_first by lia.
      pose proof (mindex_ok l (Z.max 0 (count l + start)) T) as B.
      rewrite to_s_small by (change (2 ^ (64 - 1)) with (2 ^ 63); lia). split; [reflexivity|exact B].
    - unfold is_int64 in S1. lia. }
  destruct Es as [Es Bs].
  assert (Ee : (if stop <=? -1 then to_s 64 (mindex mi l (count l - 1)) else if stop =? 0 then s else stop) = e /\ 0 <= e < 2 ^ 63).
  { unfold e, last_time. destruct (stop <=? -1) eqn:E1; destruct (stop <? 0) eqn:E2; try lia.
    - rewrite <- mindex_last by lia. pose proof (mindex_ok l (count l - 1) T) as B.
      rewrite to_s_small by (change (2 ^ (64 - 1)) with (2 ^ 63); lia). split; [reflexivity|exact B].
    - destruct (stop =? 0); [split; [reflexivity|exact Bs]|]. unfold is_int64 in S2. lia. }
  destruct Ee as [Ee Be]. split; [exact Bs|]. split; [exact Be|].
  unfold cmp_range. fold l. destruct (count l <? 1) eqn:C1; [lia|]. rewrite Es. cbv zeta. rewrite Ee.
  rewrite !to_u_small by (change (2 ^ 64) with (2 * 2 ^ 63); lia).
  pose proof (sees_ordered mi l s O) as X. fold lo hi in X. rewrite (range_head_ok u l s lo hi) by auto.
  pose proof (sees_ordered mi l e O) as Y. fold t in Y. set (lo' := below mi e l) in *. rewrite (range_tail_ok u l e lo' t) by auto.
  destruct X as (X1 & X2 & _). destruct Y as (Y1 & Y2 & _). clearbody lo hi t lo' l s e.
  unfold h, FIND_OK, FIND_AGO, HEAD_NONE, TAIL_NONE. clear h.
  destruct (lo <? hi) eqn:A1; [|destruct (lo =? 0) eqn:A2; [|destruct (lo =? count l) eqn:A3]];
  destruct ifprev; cbn -[Z.ltb Z.leb Z.sub Z.add Z.min];
  try (destruct (lo <? t) eqn:A4; [lia|reflexivity]);
  (destruct (lo' <? t) eqn:B1; [|destruct (lo' =? 0) eqn:B2; [|destruct (lo' =? count l) eqn:B3]]);
  cbn -[Z.ltb Z.leb Z.gtb Z.sub Z.add Z.min];
  repeat (match goal with |- context [if ?b then _ else _] => destruct b eqn:? end);
  try reflexivity; try (exfalso; lia); try (do 3 f_equal; lia).
Qed.

Lemma window_slice : forall l s e, in_order mi l -> below mi s l < upto mi e l ->
  firstn (Z.to_nat (upto mi e l - below mi s l)) (skipn (Z.to_nat (below mi s l)) l) = window mi s e l.
Proof.
  intros l s e O H. pose proof (below_upto mi l s) as B1. pose proof (below_upto mi l e) as B2.
  unfold window. symmetry. rewrite (filter_slice _ l (Z.to_nat (below mi s l)) (Z.to_nat (upto mi e l))).
  - f_equal. lia.
  - lia.
  - unfold count in B2. lia.
  - intros k x E. destruct (nth_mindex mi l k x E) as (M & K).
    pose proof (below_nth mi l s (Z.of_nat k) O K) as X. pose proof (upto_nth mi l e (Z.of_nat k) O K) as Y.
    rewrite M in X, Y. rewrite Bool.andb_true_iff, Z.leb_le, Z.leb_le. lia.
Qed.
Lemma window_empty : forall l s e, in_order mi l -> upto mi e l <= below mi s l -> window mi s e l = [].
Proof.
  intros l s e O H. unfold window. apply (filter_slice_empty _ l (Z.to_nat (below mi s l)) (Z.to_nat (upto mi e l))). lia.
  intros k x E P. destruct (nth_mindex mi l k x E) as (M & K).
  pose proof (below_nth mi l s (Z.of_nat k) O K) as X. pose proof (upto_nth mi l e (Z.of_nat k) O K) as Y.
  rewrite M in X, Y. rewrite Bool.andb_true_iff, Z.leb_le, Z.leb_le in P. lia.
Qed.

(** C16: the answer to a range query is the records with a time in the closed interval *)
Theorem C16_range : forall (u : funit) start stop,
  in_order mi (fu_recs u) -> times_ok mi (fu_recs u) -> is_int64 start -> is_int64 stop ->
  exists q, cmp_range mi quot u start stop false = Some q /\
    let s := first_time mi (fu_recs u) start in
    answers q (fu_recs u) (window mi s (last_time mi (fu_recs u) s stop) (fu_recs u)).
Proof.
  intros u start stop O T S1 S2. destruct (Z_lt_le_dec (count (fu_recs u)) 1) as [C|C].
  - exists None. split. { unfold cmp_range. replace (count (fu_recs u) <? 1) with true by lia. reflexivity. }
    simpl. assert (E : fu_recs u = []) by (unfold count in C; destruct (fu_recs u); [reflexivity|simpl in C; lia]).
    rewrite E. reflexivity.
  - destruct (cmp_range_ok u start stop false O T S1 S2 C) as (_ & _ & E). simpl in E. eexists; split; [exact E|].
    cbv zeta. set (s := first_time mi (fu_recs u) start) in *. set (e := last_time mi (fu_recs u) s stop) in *.
    pose proof (below_upto mi (fu_recs u) s) as B1. pose proof (below_upto mi (fu_recs u) e) as B2.
    destruct (below mi s (fu_recs u) <? upto mi e (fu_recs u)) eqn:L; simpl.
    + repeat split; try lia. { unfold count in B2. lia. } apply window_slice; auto. lia.
    + apply window_empty; auto. lia.
Qed.

Lemma skipn_last : forall (l : list R) n x, nth_error l n = Some x -> skipn n l = x :: skipn (S n) l.
Proof. induction l; destruct n; simpl; intros x H; try discriminate. injection H as ->; auto. rewrite (IHl n x H). reflexivity. Qed.

Lemma firstn_snoc : forall (l : list R) k y, nth_error l k = Some y -> firstn (S k) l = firstn k l ++ [y].
Proof.
  induction l as [|a l IH]; intros k y E; destruct k; simpl in E; try discriminate.
  - injection E as ->. reflexivity.
  - change (firstn (S (S k)) (a :: l)) with (a :: firstn (S k) l). rewrite (IH k y E). reflexivity.
Qed.
Lemma filter_below : forall l s, in_order mi l -> filter (fun x => mi x <? s) l = firstn (Z.to_nat (below mi s l)) l.
Proof.
  intros l s O. pose proof (below_upto mi l s) as B. rewrite (filter_slice _ l 0%nat (Z.to_nat (below mi s l))).
  - rewrite Nat.sub_0_r. reflexivity.
  - lia.
  - unfold count in B; lia.
  - intros k x E. destruct (nth_mindex mi l k x E) as (M & K). pose proof (below_nth mi l s (Z.of_nat k) O K) as X.
    rewrite M in X. rewrite Z.ltb_lt. lia.
Qed.
Lemma filter_from : forall l s, in_order mi l -> filter (fun x => s <=? mi x) l = skipn (Z.to_nat (below mi s l)) l.
Proof.
  intros l s O. pose proof (below_upto mi l s) as B. rewrite (filter_slice _ l (Z.to_nat (below mi s l)) (length l)).
  - apply firstn_all2. rewrite skipn_length. lia.
  - unfold count in B; lia.
  - lia.
  - intros k x E. destruct (nth_mindex mi l k x E) as (M & K). pose proof (below_nth mi l s (Z.of_nat k) O K) as X.
    rewrite M in X. rewrite Z.leb_le. unfold count in K. lia.
Qed.
Lemma existsb_same : forall l s, in_order mi l -> existsb (fun x => mi x =? s) l = (below mi s l <? upto mi s l).
Proof.
  intros l s O. pose proof (below_upto mi l s) as B. destruct (below mi s l <? upto mi s l) eqn:E.
  - destruct (mindex_nth mi l (below mi s l)) as (x & N & M); [lia|].
    apply existsb_exists. exists x. split. { eapply nth_error_In; eauto. }
    pose proof (below_nth mi l s (below mi s l) O). pose proof (upto_nth mi l s (below mi s l) O). lia.
  - destruct (existsb _ l) eqn:X; auto. apply existsb_exists in X. destruct X as (x & I0 & P).
    apply In_nth_error in I0. destruct I0 as (k & N). destruct (nth_mindex mi l k x N) as (M & K).
    pose proof (below_nth mi l s (Z.of_nat k) O K). pose proof (upto_nth mi l s (Z.of_nat k) O K). lia.
Qed.
Lemma filter_upto_skip : forall l n e, in_order mi l -> (n <= length l)%nat ->
  filter (fun x => mi x <=? e) (skipn n l) = firstn (Z.to_nat (upto mi e l) - n) (skipn n l).
Proof.
  intros l n e O N. pose proof (below_upto mi l e) as B.
  destruct (Nat.le_gt_cases (Z.to_nat (upto mi e l)) n) as [L|L].
  - replace (Z.to_nat (upto mi e l) - n)%nat with 0%nat by lia. simpl. apply filter_none.
    intros x Ix. apply In_nth_error in Ix. destruct Ix as (k & E). rewrite nth_error_skipn' in E.
    destruct (nth_mindex mi l _ x E) as (M & K). pose proof (upto_nth mi l e _ O K). lia.
  - rewrite (filter_slice _ (skipn n l) 0%nat (Z.to_nat (upto mi e l) - n)).
    + rewrite Nat.sub_0_r. reflexivity.
    + lia.
    + rewrite skipn_length. unfold count in B. lia.
    + intros k x E. rewrite nth_error_skipn' in E. destruct (nth_mindex mi l _ x E) as (M & K).
      pose proof (upto_nth mi l e _ O K). rewrite Z.leb_le. lia.
Qed.

(** with ifprev the record before the start is added if no record has that time *)
Theorem C16_prev : forall (u : funit) start stop,
  in_order mi (fu_recs u) -> times_ok mi (fu_recs u) -> is_int64 start -> is_int64 stop ->
  exists q, cmp_range mi quot u start stop true = Some q /\
    let s := first_time mi (fu_recs u) start in
    answers q (fu_recs u) (window_prev mi s (last_time mi (fu_recs u) s stop) (fu_recs u)).
Proof.
  intros u start stop O T S1 S2. destruct (Z_lt_le_dec (count (fu_recs u)) 1) as [C|C].
  - exists None. split. { unfold cmp_range. replace (count (fu_recs u) <? 1) with true by lia. reflexivity. }
    simpl. assert (E : fu_recs u = []) by (unfold count in C; destruct (fu_recs u); [reflexivity|simpl in C; lia]).
    rewrite E. reflexivity.
  - destruct (cmp_range_ok u start stop true O T S1 S2 C) as (_ & _ & E). eexists; split; [exact E|]. clear E.
    cbv zeta. set (l := fu_recs u) in *. set (s := first_time mi l start) in *. set (e := last_time mi l s stop) in *.
    pose proof (below_upto mi l s) as B1. pose proof (below_upto mi l e) as B2.
    set (h := if below mi s l <? upto mi s l then below mi s l else if below mi s l =? 0 then 0 else below mi s l - 1).
    assert (W : window_prev mi s e l = firstn (Z.to_nat (upto mi e l) - Z.to_nat h) (skipn (Z.to_nat h) l) /\ 0 <= h <= count l).
    { assert (Hb : 0 <= h <= count l).
      { unfold h. destruct (below mi s l <? upto mi s l); [lia|]. destruct (below mi s l =? 0) eqn:Z0; lia. }
      split; [|exact Hb]. rewrite <- filter_upto_skip by (auto; unfold count in Hb; lia).
      unfold window_prev. rewrite existsb_same by auto. cbv zeta. f_equal. unfold h in *. clear h.
      rewrite filter_below, filter_from by auto.
      destruct (below mi s l <? upto mi s l) eqn:X; [reflexivity|].
      destruct (below mi s l =? 0) eqn:Z0.
      - replace (below mi s l) with 0 by lia. reflexivity.
      - set (n := Z.to_nat (below mi s l)). replace (Z.to_nat (below mi s l - 1)) with (n - 1)%nat by lia.
        assert (Nb : (0 < n <= length l)%nat) by (unfold count in B1; lia).
        destruct (nth_error l (n - 1)) as [y|] eqn:Ny; [|apply nth_error_None in Ny; lia].
        rewrite (skipn_last l (n - 1) y Ny). replace (S (n - 1)) with n by lia.
        assert (F : firstn n l = firstn (n - 1) l ++ [y]).
        { replace n with (S (n - 1)) at 1 by lia. apply firstn_snoc; exact Ny. }
        rewrite F. destruct (firstn (n - 1) l) as [|b bs]; simpl; [reflexivity|]. rewrite last_last. reflexivity. }
    destruct W as (W & Hb). cbv beta iota. fold h. destruct (h <? upto mi e l) eqn:L; simpl.
    + repeat split; try lia. { unfold count in B2. lia. } rewrite W. f_equal. lia.
    + rewrite W. replace (Z.to_nat (upto mi e l) - Z.to_nat h)%nat with 0%nat by lia. reflexivity.
Qed.

Lemma cmp_same_ok : forall u m, in_order mi (fu_recs u) ->
  let l := fu_recs u in let lo := below mi m l in let hi := upto mi m l in
  cmp_same mi quot u m = Some (if lo <? hi then (hi - lo, lo, hi - lo)
    else if (lo =? 0) && (0 <? count l) then (-1, -1, 0) else (-1, lo, 0)).
Proof.
  intros u m O l lo hi. fold l in O. unfold cmp_same. fold l. pose proof (below_upto mi l m) as B. fold lo hi in B.
  destruct (Z_lt_le_dec (count l) 1) as [C|C].
  - assert (goto quot u l m = -1) as -> by (unfold goto; replace (count l <? 1) with true by lia; reflexivity).
    pose proof (count_nonneg l). replace (count l) with 0 in * by lia.
    destruct (lo <? hi) eqn:Q; [lia|]. rewrite Bool.andb_false_r. simpl. do 2 f_equal. f_equal. lia.
  - pose proof (goto_range u l m C) as G. destruct (goto quot u l m <? 0) eqn:G0; [lia|].
    rewrite (same_loop_ok mi l m lo hi).
    + destruct (lo <? hi) eqn:Q; [reflexivity|]. destruct (lo =? 0) eqn:Q1; simpl.
      * replace (0 <? count l) with true by lia. reflexivity.
      * reflexivity.
    + apply sees_ordered; auto.
    + left. unfold count in *. lia.
Qed.

Lemma back_ok : forall n oi oc, Z.of_nat n <= oi -> back n oi oc = (oi - Z.of_nat n, oc + Z.of_nat n).
Proof.
  induction n; intros oi oc H. { simpl. f_equal; lia. }
  simpl. destruct (oi =? 0) eqn:E; [lia|]. rewrite IHn by lia. f_equal; lia.
Qed.

(** a query for one time *)
Theorem C16_where : forall (u : funit) m, in_order mi (fu_recs u) ->
  exists q, cmp_where mi quot u m 0 = Some q /\ answers q (fu_recs u) (filter (fun x => mi x =? m) (fu_recs u)).
Proof.
  intros u m O. pose proof (cmp_same_ok u m O) as E. cbv zeta in E. unfold cmp_where. rewrite E. clear E.
  set (l := fu_recs u) in *. pose proof (below_upto mi l m) as B.
  assert (W : filter (fun x => mi x =? m) l = window mi m m l).
  { unfold window. apply filter_ext. intros x. lia. }
  rewrite W. destruct (below mi m l <? upto mi m l) eqn:Q.
  - eexists; split; [reflexivity|]. destruct (upto mi m l - below mi m l <? 0) eqn:Q1; [lia|]. simpl.
    repeat split; try lia. { unfold count in B. lia. } apply window_slice; auto. lia.
  - destruct ((below mi m l =? 0) && (0 <? count l)); (eexists; split; [reflexivity|]; simpl; apply window_empty; auto; lia).
Qed.

(** a query for the record a number of places before a time *)
Theorem C16_before : forall (u : funit) m offset, in_order mi (fu_recs u) -> offset < 0 ->
  exists q, cmp_where mi quot u m offset = Some q /\
    answers q (fu_recs u)
      (match nth_error (rev (filter (fun x => mi x <? m) (fu_recs u))) (Z.to_nat (- offset - 1)) with Some x => [x] | None => [] end).
Proof.
  intros u m offset O N. pose proof (cmp_same_ok u m O) as E. cbv zeta in E. unfold cmp_where. rewrite E. clear E.
  set (l := fu_recs u) in *. pose proof (below_upto mi l m) as B. rewrite filter_below by auto.
  set (lo := below mi m l) in *. set (hi := upto mi m l) in *.
  destruct (offset =? 0) eqn:O1; [lia|]. destruct (offset <? 0) eqn:O2; [|lia].
  assert (Len : length (firstn (Z.to_nat lo) l) = Z.to_nat lo) by (apply firstn_length_le; unfold count in B; lia).
  destruct (Z_lt_le_dec lo (- offset)) as [L|L].
  - assert (X : nth_error (rev (firstn (Z.to_nat lo) l)) (Z.to_nat (- offset - 1)) = None).
    { apply nth_error_None. rewrite rev_length, Len. lia. }
    rewrite X. exists None. split; [|reflexivity].
    destruct (lo <? hi) eqn:Q; [|destruct ((lo =? 0) && (0 <? count l)) eqn:Q1].
    + destruct ((lo <? 0) || (lo <? - offset)) eqn:Q2; [reflexivity|lia].
    + reflexivity.
    + destruct ((lo <? 0) || (lo <? - offset)) eqn:Q2; [reflexivity|lia].
  - set (k := Z.to_nat (- offset)).
    destruct (nth_error l (Z.to_nat (lo + offset))) as [x|] eqn:Nx; [|apply nth_error_None in Nx; unfold count in B; lia].
    assert (X : nth_error (rev (firstn (Z.to_nat lo) l)) (Z.to_nat (- offset - 1)) = Some x).
    { rewrite nth_error_nth' with (d := x) by (rewrite rev_length, Len; lia).
      rewrite rev_nth by (rewrite Len; lia). rewrite Len.
      replace (Z.to_nat lo - S (Z.to_nat (- offset - 1)))%nat with (Z.to_nat (lo + offset)) by lia.
      f_equal. apply nth_error_nth. rewrite <- Nx. apply nth_error_firstn_lt. lia. }
    rewrite X. exists (Some (lo + offset, 1)). split.
    + destruct (lo <? hi) eqn:Q; [|destruct ((lo =? 0) && (0 <? count l)) eqn:Q1]; [| lia |];
      (destruct ((lo <? 0) || (lo <? - offset)) eqn:Q2; [lia|]); rewrite back_ok by lia; do 3 f_equal; lia.
    + simpl. repeat split; try lia. { unfold count in B. lia. } rewrite (skipn_last l _ x Nx). reflexivity.
Qed.
End P.
