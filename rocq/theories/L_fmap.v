(** Lemmas about the search loops of M_fmap.v on ordered series. *)
From Verif Require Import Base S_fmap M_fmap.
From Coq Require Import ZifyBool ZifyNat.

Section G.
Context {R : Type}.
Lemma filter_none : forall (P : R -> bool) l, (forall x, In x l -> P x = false) -> filter P l = [].
Proof. induction l; simpl; intros H; auto. rewrite (H a) by auto. apply IHl. auto. Qed.
Lemma filter_all : forall (P : R -> bool) l, (forall x, In x l -> P x = true) -> filter P l = l.
Proof. induction l; simpl; intros H; auto. rewrite (H a) by auto. f_equal. apply IHl. auto. Qed.

(** from positions to records *)
Lemma filter_slice : forall (P : R -> bool) (l : list R) a b,
  (a <= b)%nat -> (b <= length l)%nat ->
  (forall k x, nth_error l k = Some x -> (P x = true <-> (a <= k < b)%nat)) ->
  filter P l = firstn (b - a) (skipn a l).
Proof.
  induction l as [|y l IH]; intros a b AB BL H.
  - rewrite skipn_nil, firstn_nil. reflexivity.
  - pose proof (H 0%nat y eq_refl) as H0. simpl in BL.
    destruct a as [|a].
    + destruct b as [|b].
      * rewrite filter_none; [reflexivity|]. intros x Ix. apply In_nth_error in Ix. destruct Ix as (k & E).
        destruct (P x) eqn:Px; auto. assert (0 <= k < 0)%nat by (apply (H k x); auto). lia.
      * assert (Py : P y = true) by (apply H0; lia). simpl. rewrite Py. f_equal.
        rewrite (IH 0%nat b); [rewrite Nat.sub_0_r; reflexivity|lia|lia|].
        intros k x E. rewrite (H (S k) x E). lia.
    + assert (Py : P y = false) by (destruct (P y) eqn:Q; auto; exfalso; assert (S a <= 0 < b)%nat by (apply H0; auto); lia).
      simpl. rewrite Py. destruct b as [|b]; [lia|]. rewrite (IH a b); [reflexivity|lia|lia|].
      intros k x E. rewrite (H (S k) x E). lia.
Qed.
Lemma filter_slice_empty : forall (P : R -> bool) (l : list R) a b,
  (b <= a)%nat -> (forall k x, nth_error l k = Some x -> P x = true -> (a <= k < b)%nat) -> filter P l = [].
Proof.
  intros P l a b AB H. apply filter_none. intros x Ix. apply In_nth_error in Ix. destruct Ix as (k & E).
  destruct (P x) eqn:Px; auto. specialize (H k x E Px). lia.
Qed.
Lemma nth_error_skipn' : forall (l : list R) n k, nth_error (skipn n l) k = nth_error l (n + k).
Proof. induction l; destruct n; simpl; intros k; auto. destruct k; reflexivity. Qed.
Lemma nth_error_firstn_lt : forall (l : list R) n k, (k < n)%nat -> nth_error (firstn n l) k = nth_error l k.
Proof. induction l; destruct n, k; simpl; intros H; auto; try lia. apply IHl. lia. Qed.
End G.

Section L.
Context {R : Type}.
Variable mi : R -> Z.

Lemma count_nonneg : forall (l : list R), 0 <= count l.
Proof. intros; unfold count; lia. Qed.

Lemma mindex_nth : forall (l : list R) i, 0 <= i < count l ->
  exists x, nth_error l (Z.to_nat i) = Some x /\ mindex mi l i = mi x.
Proof.
  intros l i H. unfold mindex, mindex_of, count in *.
  destruct (nth_error l (Z.to_nat i)) as [x|] eqn:E.
  - exists x; split; auto.
    replace ((i + 1 >? Z.of_nat (length l)) || (Z.of_nat (length l) =? 0)) with false by lia. reflexivity.
  - apply nth_error_None in E. lia.
Qed.

Definition below (m : Z) (l : list R) : Z := count (filter (fun x => mi x <? m) l).
Definition upto (m : Z) (l : list R) : Z := count (filter (fun x => mi x <=? m) l).

Lemma in_order_tail : forall a (l : list R), in_order mi (a :: l) -> in_order mi l.
Proof. intros a l H. unfold in_order in *. simpl in H. apply StronglySorted_inv in H. tauto. Qed.
Lemma in_order_head : forall a (l : list R) x, in_order mi (a :: l) -> In x l -> mi a <= mi x.
Proof.
  intros a l x H I0. unfold in_order in H. simpl in H. apply StronglySorted_inv in H. destruct H as [_ H].
  rewrite Forall_forall in H. apply H. apply in_map. assumption.
Qed.

Lemma cut_nth : forall (P : R -> bool) (l : list R) k x,
  (forall a b c y z, l = a ++ y :: b ++ z :: c -> P z = true -> P y = true) ->
  nth_error l k = Some x -> (P x = true <-> (k < length (filter P l))%nat).
Proof.
  induction l as [|a l IH]; intros k x D E. { destruct k; discriminate. }
  assert (D' : forall a b c y z, l = a ++ y :: b ++ z :: c -> P z = true -> P y = true).
  { intros a0 b c y z E1 H. apply (D (a :: a0) b c y z); auto. simpl. f_equal. exact E1. }
  destruct k as [|k]; simpl in E.
  - injection E as ->. simpl. destruct (P x) eqn:Px; simpl.
    + split; auto; lia.
    + split; [discriminate|]. intros H. exfalso.
      assert (F : filter P l = []).
      { apply filter_none. intros y Iy. destruct (P y) eqn:Py; auto.
        apply in_split in Iy. destruct Iy as (b & c & ->).
        assert (P x = true) by (apply (D [] b c x y); auto). congruence. }
      rewrite F in H. simpl in H. lia.
  - specialize (IH k x D' E). simpl. destruct (P a) eqn:Pa; simpl.
    + split; intros H. * apply IH in H. lia. * apply IH. lia.
    + assert (F : filter P l = []).
      { apply filter_none. intros y Iy. destruct (P y) eqn:Py; auto.
        apply in_split in Iy. destruct Iy as (b & c & ->).
        assert (P a = true) by (apply (D [] b c a y); auto). congruence. }
      rewrite F in *. simpl in *. split; intros H; [apply IH in H|]; lia.
Qed.

Lemma in_order_pair : forall (l : list R) a b c y z, in_order mi l -> l = a ++ y :: b ++ z :: c -> mi y <= mi z.
Proof.
  induction l as [|w l IH]; intros a b c y z O E. { destruct a; discriminate. }
  destruct a as [|a0 a]; simpl in E; injection E as -> ->.
  - apply (in_order_head y (b ++ z :: c)); auto. apply in_or_app. right; left; auto.
  - apply (IH a b c y z); auto. apply in_order_tail in O. auto.
Qed.

Lemma below_nth : forall (l : list R) m i, in_order mi l -> 0 <= i < count l -> (mindex mi l i < m <-> i < below m l).
Proof.
  intros l m i O H. destruct (mindex_nth l i H) as (x & E & M). rewrite M.
  pose proof (cut_nth (fun x => mi x <? m) l (Z.to_nat i) x) as C. simpl in C.
  unfold below, count. rewrite <- Z.ltb_lt, C; auto. lia.
  intros a b c y z E1 P. pose proof (in_order_pair l a b c y z O E1). lia.
Qed.
Lemma upto_nth : forall (l : list R) m i, in_order mi l -> 0 <= i < count l -> (mindex mi l i <= m <-> i < upto m l).
Proof.
  intros l m i O H. destruct (mindex_nth l i H) as (x & E & M). rewrite M.
  pose proof (cut_nth (fun x => mi x <=? m) l (Z.to_nat i) x) as C. simpl in C.
  unfold upto, count. rewrite <- Z.leb_le, C; auto. lia.
  intros a b c y z E1 P. pose proof (in_order_pair l a b c y z O E1). lia.
Qed.
Lemma below_upto : forall (l : list R) m, 0 <= below m l <= upto m l /\ upto m l <= count l.
Proof.
  intros l m. unfold below, upto, count. induction l as [|a l IH]; simpl. { lia. }
  destruct (mi a <? m) eqn:E1, (mi a <=? m) eqn:E2; simpl length; lia.
Qed.

(** what the loops see: times below, equal, above [m] *)
Definition sees (l : list R) (m lo hi : Z) : Prop :=
  0 <= lo <= hi /\ hi <= count l /\
  (forall i, 0 <= i < count l -> (mindex mi l i < m <-> i < lo)) /\
  (forall i, 0 <= i < count l -> (mindex mi l i <= m <-> i < hi)).
Lemma sees_ordered : forall l m, in_order mi l -> sees l m (below m l) (upto m l).
Proof.
  intros l m O. pose proof (below_upto l m). repeat split; try lia; intros; try (apply below_nth; auto); try (apply upto_nth; auto).
Qed.

Section Loops.
Variables (l : list R) (m lo hi : Z).
Hypothesis SE : sees l m lo hi.

Ltac look i :=
  let P1 := fresh in let P2 := fresh in
  destruct SE as (? & ? & P1 & P2);
  assert (0 <= i < count l) by lia;
  specialize (P1 i ltac:(lia)); specialize (P2 i ltac:(lia)).

Lemma head_loop_ok : forall fuel i dir oc oi,
  (dir = 0 /\ oc = 0 /\ oi = -1 /\ 0 <= i < count l /\ count l + 1 < Z.of_nat fuel)
  \/ (dir = 1 /\ oc = 0 /\ oi = -1 /\ 1 <= i <= lo /\ count l - i < Z.of_nat fuel)
  \/ (dir = -1 /\ oc = 0 /\ oi = -1 /\ -1 <= i /\ hi <= i + 1 < count l /\ i + 1 < Z.of_nat fuel)
  \/ (dir = -1 /\ 0 < oc /\ oi = i + 1 /\ lo <= i + 1 < hi /\ i + 1 < Z.of_nat fuel) ->
  head_loop mi fuel l m i dir oc oi =
    Some (if lo <? hi then (FIND_OK, lo) else if lo =? 0 then (HEAD_NONE, -1)
          else if lo =? count l then (TAIL_NONE, -1) else (FIND_AGO, lo - 1)).
Proof.
  induction fuel as [|f IH]; intros i dir oc oi H. { destruct SE as (S1 & S2 & _); lia. }
  simpl.
  destruct ((0 <=? i) && (i <? count l)) eqn:B.
  - assert (Bi : 0 <= i < count l) by lia.
    pose proof SE as (S1 & S2 & S3 & S4). specialize (S3 i Bi). specialize (S4 i Bi).
    destruct (mindex mi l i <? m) eqn:L1; [|destruct (mindex mi l i >? m) eqn:L2].
    + destruct (0 <? oc) eqn:Oc. { destruct (lo <? hi) eqn:Q; [|lia]. do 2 f_equal; lia. }
      destruct (dir =? -1) eqn:Dr.
      * destruct (lo <? hi) eqn:Q; [lia|]. destruct (lo =? 0) eqn:Q1; [lia|]. destruct (lo =? count l) eqn:Q2; [lia|]. do 2 f_equal; lia.
      * apply IH. lia.
    + destruct (0 <? oc) eqn:Oc. { exfalso. lia. }
      destruct (dir =? 1) eqn:Dr.
      * destruct (lo <? hi) eqn:Q; [lia|]. destruct (lo =? 0) eqn:Q1; [lia|]. destruct (lo =? count l) eqn:Q2; [lia|]. do 2 f_equal; lia.
      * apply IH. lia.
    + destruct (dir =? 1) eqn:Dr.
      * destruct (lo <? hi) eqn:Q; [|lia]. do 2 f_equal; lia.
      * apply IH. lia.
  - destruct SE as (S1 & S2 & S3 & S4).
    destruct (0 <? oc) eqn:Oc.
    + destruct (lo <? hi) eqn:Q; [|lia]. do 2 f_equal; lia.
    + destruct (i <? 0) eqn:I0.
      * destruct (lo <? hi) eqn:Q; [lia|]. destruct (lo =? 0) eqn:Q1; [|lia]. do 2 f_equal; lia.
      * destruct (lo <? hi) eqn:Q; [lia|]. destruct (lo =? 0) eqn:Q1; [lia|]. destruct (lo =? count l) eqn:Q2; [|lia]. do 2 f_equal; lia.
Qed.

Lemma tail_loop_ok : forall fuel i dir oc oi,
  (dir = 0 /\ oc = 0 /\ oi = -1 /\ 0 <= i < count l /\ count l + 1 < Z.of_nat fuel)
  \/ (dir = -1 /\ oc = 0 /\ oi = -1 /\ -1 <= i /\ hi <= i + 1 < count l /\ i + 1 < Z.of_nat fuel)
  \/ (dir = 1 /\ oc = 0 /\ oi = -1 /\ 1 <= i <= lo /\ count l - i < Z.of_nat fuel)
  \/ (dir = 1 /\ 0 < oc /\ oi = i - 1 /\ lo < i <= hi /\ count l - i < Z.of_nat fuel) ->
  tail_loop mi fuel l m i dir oc oi =
    Some (if lo <? hi then (FIND_OK, hi - 1) else if lo =? 0 then (HEAD_NONE, -1)
          else if lo =? count l then (TAIL_NONE, -1) else (FIND_AGO, lo - 1)).
Proof.
  induction fuel as [|f IH]; intros i dir oc oi H. { destruct SE as (S1 & S2 & _); lia. }
  simpl.
  destruct ((0 <=? i) && (i <? count l)) eqn:B.
  - assert (Bi : 0 <= i < count l) by lia.
    pose proof SE as (S1 & S2 & S3 & S4). specialize (S3 i Bi). specialize (S4 i Bi).
    destruct (mindex mi l i <? m) eqn:L1; [|destruct (mindex mi l i >? m) eqn:L2].
    + destruct (0 <? oc) eqn:Oc. { exfalso. lia. }
      destruct (dir =? -1) eqn:Dr.
      * destruct (lo <? hi) eqn:Q; [lia|]. destruct (lo =? 0) eqn:Q1; [lia|]. destruct (lo =? count l) eqn:Q2; [lia|]. do 2 f_equal; lia.
      * apply IH. lia.
    + destruct (0 <? oc) eqn:Oc. { destruct (lo <? hi) eqn:Q; [|lia]. do 2 f_equal; lia. }
      destruct (dir =? 1) eqn:Dr.
      * destruct (lo <? hi) eqn:Q; [lia|]. destruct (lo =? 0) eqn:Q1; [lia|]. destruct (lo =? count l) eqn:Q2; [lia|]. do 2 f_equal; lia.
      * apply IH. lia.
    + destruct (dir =? -1) eqn:Dr.
      * destruct (lo <? hi) eqn:Q; [|lia]. do 2 f_equal; lia.
      * apply IH. lia.
  - destruct SE as (S1 & S2 & S3 & S4).
    destruct (0 <? oc) eqn:Oc.
    + destruct (lo <? hi) eqn:Q; [|lia]. do 2 f_equal; lia.
    + destruct (i <? 0) eqn:I0.
      * destruct (lo <? hi) eqn:Q; [lia|]. destruct (lo =? 0) eqn:Q1; [|lia]. do 2 f_equal; lia.
      * destruct (lo <? hi) eqn:Q; [lia|]. destruct (lo =? 0) eqn:Q1; [lia|]. destruct (lo =? count l) eqn:Q2; [|lia]. do 2 f_equal; lia.
Qed.

Lemma same_after_ok : forall fuel k, lo < k <= hi -> count l - k <= Z.of_nat fuel -> same_after mi fuel l m k = hi - k.
Proof.
  induction fuel as [|f IH]; intros k K F. { simpl. destruct SE as (S1 & S2 & _); lia. }
  cbn [same_after]. destruct (k <? count l) eqn:B; [|destruct SE as (S1 & S2 & _); lia].
  pose proof SE as (S1 & S2 & S3 & S4). specialize (S3 k ltac:(lia)). specialize (S4 k ltac:(lia)).
  destruct (mindex mi l k =? m) eqn:E.
  - rewrite IH by lia. lia.
  - lia.
Qed.

Lemma same_loop_ok : forall fuel i dir oc oi,
  (dir = 0 /\ oc = 0 /\ oi = -1 /\ 0 <= i < count l /\ count l + 1 < Z.of_nat fuel)
  \/ (dir = 1 /\ oc = 0 /\ oi = -1 /\ 1 <= i <= lo /\ count l - i < Z.of_nat fuel)
  \/ (dir = -1 /\ oc = 0 /\ oi = -1 /\ -1 <= i /\ hi <= i + 1 < count l /\ i + 1 < Z.of_nat fuel)
  \/ (dir = 1 /\ 0 < oc /\ oi = lo /\ oc = i - lo /\ lo < i <= hi /\ count l - i < Z.of_nat fuel)
  \/ (dir = -1 /\ 0 < oc /\ oi = i + 1 /\ oc = hi - (i + 1) /\ lo <= i + 1 < hi /\ i + 1 < Z.of_nat fuel) ->
  same_loop mi fuel l m i dir oc oi =
    Some (if lo <? hi then (hi - lo, lo, hi - lo) else if lo =? 0 then (-1, -1, 0) else (-1, lo, 0)).
Proof.
  induction fuel as [|f IH]; intros i dir oc oi H. { destruct SE as (S1 & S2 & _); lia. }
  simpl.
  destruct ((0 <=? i) && (i <? count l)) eqn:B.
  - assert (Bi : 0 <= i < count l) by lia.
    pose proof SE as (S1 & S2 & S3 & S4). specialize (S3 i Bi). specialize (S4 i Bi).
    destruct (m >? mindex mi l i) eqn:L1; [|destruct (m <? mindex mi l i) eqn:L2].
    + destruct (0 <? oc) eqn:Oc. { destruct (lo <? hi) eqn:Q; [|lia]. do 2 f_equal; [f_equal|]; lia. }
      destruct (dir =? -1) eqn:Dr.
      * destruct (lo <? hi) eqn:Q; [lia|]. destruct (lo =? 0) eqn:Q1; [lia|]. do 2 f_equal; [f_equal|]; lia.
      * apply IH. lia.
    + destruct (0 <? oc) eqn:Oc. { destruct (lo <? hi) eqn:Q; [|lia]. do 2 f_equal; [f_equal|]; lia. }
      destruct (dir =? 1) eqn:Dr.
      * destruct (lo <? hi) eqn:Q; [lia|]. destruct (lo =? 0) eqn:Q1; [lia|]. do 2 f_equal; [f_equal|]; lia.
      * apply IH. lia.
    + destruct (oc =? 0) eqn:Oc; [destruct (dir =? 0) eqn:Dr|].
      * rewrite same_after_ok by (unfold count in *; lia). apply IH. lia.
      * apply IH. clear IH. destruct H as [H|[H|[H|[H|H]]]]; [exfalso; lia| | |exfalso; lia|exfalso; lia].
        -- right; right; right; left. lia.
        -- right; right; right; right. lia.
      * apply IH. clear IH. destruct H as [H|[H|[H|[H|H]]]]; [exfalso; lia|exfalso; lia|exfalso; lia| |].
        -- right; right; right; left. destruct (dir =? -1) eqn:Dr; lia.
        -- right; right; right; right. destruct (dir =? -1) eqn:Dr; lia.
  - destruct SE as (S1 & S2 & S3 & S4).
    destruct (0 <? oc) eqn:Oc.
    + destruct (lo <? hi) eqn:Q; [|lia]. do 2 f_equal; [f_equal|]; lia.
    + destruct (i <? 0) eqn:I0.
      * destruct (lo <? hi) eqn:Q; [lia|]. destruct (lo =? 0) eqn:Q1; [|lia]. do 2 f_equal; lia.
      * destruct (lo <? hi) eqn:Q; [lia|]. destruct (lo =? 0) eqn:Q1; [lia|]. do 2 f_equal; [f_equal|]; lia.
Qed.

Lemma scan_back_ok : forall fuel k, lo - 1 <= k < hi -> k + 1 < Z.of_nat fuel -> scan_back mi fuel l m k = lo.
Proof.
  induction fuel as [|f IH]; intros k K F. { destruct SE as (S1 & S2 & _); lia. }
  simpl. destruct (0 <=? k) eqn:B; [|destruct SE as (S1 & S2 & _); lia].
  pose proof SE as (S1 & S2 & S3 & S4). specialize (S3 k ltac:(lia)). specialize (S4 k ltac:(lia)).
  destruct (mindex mi l k =? m) eqn:E.
  - apply IH; lia.
  - lia.
Qed.
Lemma scan_fwd_ok : forall fuel k, lo <= k <= hi -> count l - k <= Z.of_nat fuel ->
  scan_fwd mi fuel l m k = if hi =? count l then count l else hi - 1.
Proof.
  induction fuel as [|f IH]; intros k K F. { simpl. destruct (hi =? count l) eqn:Q; destruct SE as (S1 & S2 & _); lia. }
  simpl. destruct (k <? count l) eqn:B; [|destruct (hi =? count l) eqn:Q; destruct SE as (S1 & S2 & _); lia].
  pose proof SE as (S1 & S2 & S3 & S4). specialize (S3 k ltac:(lia)). specialize (S4 k ltac:(lia)).
  destruct (mindex mi l k =? m) eqn:E.
  - apply IH; lia.
  - destruct (hi =? count l) eqn:Q; lia.
Qed.

Lemma find_loop_ok : forall scan e fuel i dir,
  (forall k, lo <= k < hi -> scan k = e) ->
  (dir = 0 /\ 0 <= i < count l /\ count l + 1 < Z.of_nat fuel)
  \/ (dir = 1 /\ 1 <= i <= lo /\ count l - i < Z.of_nat fuel)
  \/ (dir = -1 /\ -1 <= i /\ hi <= i + 1 < count l /\ i + 1 < Z.of_nat fuel) ->
  find_loop mi fuel scan l m i dir = Some (if lo <? hi then e else if lo =? 0 then -1 else lo).
Proof.
  intros scan e. induction fuel as [|f IH]; intros i dir SC H. { destruct SE as (S1 & S2 & _); lia. }
  simpl.
  destruct ((0 <=? i) && (i <? count l)) eqn:B.
  - assert (Bi : 0 <= i < count l) by lia.
    pose proof SE as (S1 & S2 & S3 & S4). specialize (S3 i Bi). specialize (S4 i Bi).
    destruct (m >? mindex mi l i) eqn:L1; [|destruct (m <? mindex mi l i) eqn:L2].
    + destruct (dir =? -1) eqn:Dr.
      * destruct (lo <? hi) eqn:Q; [lia|]. destruct (lo =? 0) eqn:Q1; [lia|]. f_equal; lia.
      * apply IH; auto. lia.
    + destruct (dir =? 1) eqn:Dr.
      * destruct (lo <? hi) eqn:Q; [lia|]. destruct (lo =? 0) eqn:Q1; [lia|]. f_equal; lia.
      * apply IH; auto. lia.
    + destruct (lo <? hi) eqn:Q; [|lia]. f_equal. apply SC. lia.
  - destruct SE as (S1 & S2 & S3 & S4).
    destruct (0 <? dir) eqn:D0.
    * destruct (lo <? hi) eqn:Q; [lia|]. destruct (lo =? 0) eqn:Q1; [lia|]. f_equal; lia.
    * destruct (lo <? hi) eqn:Q; [lia|]. destruct (lo =? 0) eqn:Q1; [|lia]. reflexivity.
Qed.
End Loops.

Lemma nth_mindex : forall (l : list R) k x, nth_error l k = Some x -> mindex mi l (Z.of_nat k) = mi x /\ 0 <= Z.of_nat k < count l.
Proof.
  intros l k x E. assert (k < length l)%nat by (apply nth_error_Some; congruence).
  assert (B : 0 <= Z.of_nat k < count l) by (unfold count; lia).
  destruct (mindex_nth l (Z.of_nat k) B) as (y & E1 & M). rewrite Nat2Z.id in E1. split; auto. congruence.
Qed.
End L.
