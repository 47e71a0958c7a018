(** Properties of the calendar functions: C39. *)
From Verif Require Import Base S_time M_time L_time.
From Coq Require Import ZifyBool ZifyNat.

Lemma offset_fits : forall k, -24855 <= k <= 24855 -> to_s 32 (k * 86400) = k * 86400.
Proof. intros. apply to_s_small; [lia|]. change (2 ^ (32 - 1)) with 2147483648. lia. Qed.


Lemma moved : forall now zone x k, valid x -> 0 <= dy x -> -24855 <= k <= 24855 -> (num x + k) * 86400 <> zone ->
  exists z, valid z /\ days_after k x z /\ num z = num x + k /\
    get_idate now zone (make_time zone (idate x) 0 + to_s 32 (k * 86400)) = idate z.
Proof.
  intros now zone x k V Y K N. exists (civil_date (num x + k)). destruct (civil_good (num x + k)) as [W E].
  split; [exact W|]. split; [apply after_num; assumption|]. split; [exact E|].
  rewrite make_idate, offset_fits by assumption.
  replace (num x * 86400 - zone + k * 86400) with ((num x + k) * 86400 - zone) by lia. apply get_num. lia.
Qed.

Lemma epoch : num (mkdate 1970 1 1) = 0.
Proof. reflexivity. Qed.
Lemma epoch_valid : valid (mkdate 1970 1 1).
Proof. unfold valid. vm_compute. intuition discriminate. Qed.
Lemma weekday_num : forall x w, valid x -> (weekday x w <-> w = (4 + num x) mod 7).
Proof.
  intros x w V. unfold weekday. split.
  - intros (k & A & ->). apply (after_num k _ _ epoch_valid V) in A. rewrite epoch in A. now replace (num x) with k by lia.
  - intros ->. exists (num x). split; [|reflexivity]. apply (after_num _ _ _ epoch_valid V). rewrite epoch. lia.
Qed.
Lemma later_epoch_num : forall x k, valid x -> days_after k (mkdate 1970 1 1) x -> num x = k.
Proof. intros x k V A. apply (after_num k _ _ epoch_valid V) in A. rewrite epoch in A. lia. Qed.

(** Moving a date by up to 24855 days gives the date that many days later or earlier, in every time
    zone, unless local midnight of that date is the time 0, which the code takes for "now". *)
Theorem C39_offset_day_partial : forall now zone x k e,
  valid x -> 0 <= dy x <= 200000 -> -24855 <= k <= 24855 ->
  days_after e (mkdate 1970 1 1) x -> (e + k) * 86400 <> zone ->
  exists z, valid z /\ days_after k x z /\ get_offset_day now zone (idate x) k = idate z.
Proof.
  intros now zone x k e V Y K E N. apply (later_epoch_num x e V) in E. subst e.
  destruct (moved now zone x k V ltac:(lia) K N) as (z & A & B & _ & D). exists z. split; [exact A|]. split; [exact B|].
  unfold get_offset_day. replace (k * 24 * 3600) with (k * 86400) by lia. exact D.
Qed.
Print Assumptions C39_offset_day_partial.

(** one day after 28 February 2024, and 366 days before 1 March 2024 *)
Example C39_offset_ex : get_offset_day 5 28800 20240228 1 = 20240229 /\ get_offset_day 5 (-18000) 20240301 (-366) = 20230301.
Proof. split; reflexivity. Qed.

(** The number of days between two dates. *)
Theorem C39_day_difference : forall zone x z k,
  valid x -> valid z -> 0 <= dy x <= 200000 -> 0 <= dy z <= 200000 -> days_after k x z ->
  dayoffset_ofday zone (idate x) (idate z) = k.
Proof.
  intros zone x z k V W X Z' A. apply after_num in A; [|assumption..].
  unfold dayoffset_ofday. rewrite !make_idate by (assumption || lia).
  replace (num z * 86400 - zone - (num x * 86400 - zone)) with (k * (24 * 3600)) by lia.
  rewrite Z.quot_mul by lia. apply to_s_small; [lia|]. change (2 ^ (32 - 1)) with 2147483648.
  assert (B : forall d, valid d -> 0 <= dy d <= 200000 -> -719600 <= num d <= 73000000).
  { clear. intros d V Y. pose proof (num_range d V). pose proof (month_range (dy d) (dm d) (proj1 V)).
    assert (year_start 0 <= year_start (dy d)) by
      (destruct (Z.eq_dec (dy d) 0) as [->|n]; [lia|pose proof (year_lt 0 (dy d) ltac:(lia)); destruct (leap 0); lia]).
    assert (year_start (dy d) <= year_start 200000) by
      (destruct (Z.eq_dec (dy d) 200000) as [->|n]; [lia|pose proof (year_lt (dy d) 200000 ltac:(lia)); destruct (leap (dy d)); lia]).
    change (year_start 0) with (-719528) in *. change (year_start 200000) with 72328972 in *. destruct (leap (dy d)); lia. }
  pose proof (B x V X). pose proof (B z W Z'). lia.
Qed.
Print Assumptions C39_day_difference.
Example C39_difference_ex : dayoffset_ofday 28800 20240228 20240301 = 2 /\ dayoffset_ofday 28800 20240301 20230301 = -366.
Proof. split; reflexivity. Qed.

(** The weekday of a date. *)
Theorem C39_weekday : forall now zone x w,
  valid x -> 0 <= dy x <= 200000 -> weekday x w -> week_ofday now zone (idate x) = w.
Proof.
  intros now zone x w V Y H. apply (weekday_num x w V) in H. subst w. unfold week_ofday.
  destruct (idate x =? 0) eqn:E. { exfalso. destruct V as [M D]. unfold idate in E. lia. }
  unfold local_wday, local_day. rewrite make_idate by (assumption || lia).
  replace (num x * 86400 - zone + zone) with (num x * 86400) by lia. rewrite Z.div_mul by lia. f_equal. lia.
Qed.
Print Assumptions C39_weekday.
Example C39_weekday_ex : week_ofday 5 28800 20230107 = 6 /\ week_ofday 5 (-18000) 20240229 = 4.
Proof. split; reflexivity. Qed.

(** When the day [k] days later is a working day, the function returns it. *)
Theorem C39_next_work_day_partial : forall now zone x k e,
  valid x -> 0 <= dy x <= 200000 -> -24855 <= k <= 24855 ->
  days_after e (mkdate 1970 1 1) x -> (e + k) * 86400 <> zone ->
  forall z, valid z -> days_after k x z -> working z ->
  next_work_day now zone (idate x) k = idate z.
Proof.
  intros now zone x k e V Y K E N z W A _. apply (later_epoch_num x e V) in E. subst e.
  destruct (moved now zone x k V ltac:(lia) K N) as (z' & W' & A' & _ & D).
  assert (z' = z) as -> by (apply num_inj; [assumption..|]; apply after_num in A, A'; try assumption; lia).
  unfold next_work_day. change (24 * 3600) with 86400. exact D.
Qed.
Print Assumptions C39_next_work_day_partial.
Example C39_next_ex : next_work_day 5 28800 20230105 1 = 20230106.
Proof. reflexivity. Qed.

(** The day after Friday 6 January 2023 should be Monday the 9th; the code returns a Saturday. *)
Theorem C39_next_work_day_refuted : exists x z, valid x /\ working x /\ valid z /\
  (forall now zone, zone <> 19364 * 86400 -> next_work_day now zone (idate x) 1 = idate z) /\ ~ working z.
Proof.
  assert (V : valid (mkdate 2023 1 6)) by (unfold valid; vm_compute; intuition discriminate).
  assert (W : valid (mkdate 2023 1 7)) by (unfold valid; vm_compute; intuition discriminate).
  exists (mkdate 2023 1 6), (mkdate 2023 1 7). split; [exact V|]. split.
  - exists 5. split; [apply weekday_num; [exact V|reflexivity]|lia].
  - split; [exact W|]. split.
    + intros now zone N. unfold next_work_day. change (24 * 3600) with 86400.
      destruct (moved now zone (mkdate 2023 1 6) 1 V) as (z & A & _ & C & D); [cbn [dy]; lia|lia|
        change (num (mkdate 2023 1 6)) with 19363; lia|].
      rewrite D. f_equal. apply num_inj; [assumption..|]. rewrite C. reflexivity.
    + intros (w & A & B). apply weekday_num in A; [|exact W]. vm_compute in A. lia.
Qed.
Print Assumptions C39_next_work_day_refuted.

(** The day before 2 January 1970 in Greenwich is taken for the present day. *)
Theorem C39_epoch_refuted : exists x z, valid x /\ valid z /\ days_after (-1) x z /\
  exists now, get_offset_day now 0 (idate x) (-1) <> idate z.
Proof.
  exists (mkdate 1970 1 2), (mkdate 1970 1 1). split; [unfold valid; vm_compute; intuition discriminate|].
  split; [exact epoch_valid|]. split; [reflexivity|]. exists 1700000000. vm_compute. discriminate.
Qed.
Print Assumptions C39_epoch_refuted.
