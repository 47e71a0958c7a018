(** Lemmas on the calendar model. *)
From Verif Require Import Base S_time M_time.
From Coq Require Import ZifyBool ZifyNat.

Definition num (x : date) : Z := year_start (dy x) + month_start (dy x) (dm x) + (dd x - 1).

Lemma month_cases : forall m, 1 <= m <= 12 ->
  m = 1 \/ m = 2 \/ m = 3 \/ m = 4 \/ m = 5 \/ m = 6 \/ m = 7 \/ m = 8 \/ m = 9 \/ m = 10 \/ m = 11 \/ m = 12.
Proof. lia. Qed.

Lemma year_step : forall y, year_start (y + 1) = year_start y + 365 + (if leap y then 1 else 0).
Proof.
  intros y. unfold year_start, leaps, leap. replace (y + 1 - 1) with y by lia.
  destruct (y mod 4 =? 0) eqn:A; destruct (y mod 100 =? 0) eqn:B; destruct (y mod 400 =? 0) eqn:C; cbn [andb orb negb];
    Z.to_euclidean_division_equations; lia.
Qed.

Lemma year_lt : forall y z, y < z -> year_start y + 365 + (if leap y then 1 else 0) <= year_start z.
Proof.
  intros y z L. rewrite <- year_step. clear -L.
  assert (E : forall n : nat, year_start (y + 1) <= year_start (y + 1 + Z.of_nat n)).
  { induction n; [rewrite Z.add_0_r; lia|].
    replace (y + 1 + Z.of_nat (S n)) with (y + 1 + Z.of_nat n + 1) by lia. rewrite (year_step (y + 1 + Z.of_nat n)). destruct (leap (y + 1 + Z.of_nat n)); lia. }
  specialize (E (Z.to_nat (z - (y + 1)))). replace (y + 1 + Z.of_nat (Z.to_nat (z - (y + 1)))) with z in E by lia. exact E.
Qed.

Lemma month_start_eq : forall y m, month_start y m =
  nth (Z.to_nat (m - 1)) [0; 31; 59; 90; 120; 151; 181; 212; 243; 273; 304; 334] 0 + (if (2 <? m) && leap y then 1 else 0).
Proof. intros. unfold month_start, leap. rewrite Bool.andb_assoc. reflexivity. Qed.

Lemma month_step : forall y m, 1 <= m < 12 -> month_start y (m + 1) = month_start y m + month_days y m.
Proof.
  intros y m H. rewrite !month_start_eq. unfold month_days. destruct (leap y);
  assert (C := month_cases m ltac:(lia)); decompose [or] C; subst m; try lia; reflexivity.
Qed.
Lemma month_first : forall y, month_start y 1 = 0.
Proof. intros. rewrite month_start_eq. reflexivity. Qed.
Lemma month_last : forall y, month_start y 12 + month_days y 12 = 365 + (if leap y then 1 else 0).
Proof. intros. rewrite month_start_eq. unfold month_days. destruct (leap y); reflexivity. Qed.
Lemma month_pos : forall y m, 28 <= month_days y m <= 31.
Proof. intros. unfold month_days. destruct (m =? 2); [destruct (leap y)|destruct (_ || _)]; lia. Qed.
Lemma month_lt : forall y m n, 1 <= m -> m < n -> n <= 12 -> month_start y m + month_days y m <= month_start y n.
Proof.
  intros y m n A B C.
  assert (E : forall k : nat, m + 1 + Z.of_nat k <= 12 -> month_start y m + month_days y m <= month_start y (m + 1 + Z.of_nat k)).
  { induction k; intros K.
    - rewrite Z.add_0_r, month_step by lia. lia.
    - replace (m + 1 + Z.of_nat (S k)) with (m + 1 + Z.of_nat k + 1) by lia. rewrite month_step by lia.
      pose proof (month_pos y (m + 1 + Z.of_nat k)). specialize (IHk ltac:(lia)). lia. }
  specialize (E (Z.to_nat (n - (m + 1)))). replace (m + 1 + Z.of_nat (Z.to_nat (n - (m + 1)))) with n in E by lia. apply E; lia.
Qed.

Lemma next_valid : forall x, valid x -> valid (next_date x).
Proof.
  intros [y m d] [A B]; cbn [dy dm dd] in *. unfold next_date; cbn [dy dm dd].
  pose proof (month_pos y (m + 1)). pose proof (month_pos (y + 1) 1).
  destruct (d <? month_days y m) eqn:E; [|destruct (m <? 12) eqn:F]; unfold valid; cbn [dy dm dd]; lia.
Qed.
Lemma next_num : forall x, valid x -> num (next_date x) = num x + 1.
Proof.
  intros [y m d] [A B]; cbn [dy dm dd] in *. unfold next_date, num; cbn [dy dm dd].
  destruct (d <? month_days y m) eqn:E; [|destruct (m <? 12) eqn:F]; cbn [dy dm dd].
  - lia.
  - rewrite month_step by lia. lia.
  - rewrite year_step, month_first. assert (m = 12) by lia. subst m. pose proof (month_last y). lia.
Qed.
Lemma later_valid : forall n x, valid x -> valid (later n x).
Proof. induction n; intros; cbn [later]; auto using next_valid. Qed.
Lemma later_num : forall n x, valid x -> num (later n x) = num x + Z.of_nat n.
Proof. induction n; intros; cbn [later]; [lia|]. rewrite next_num, IHn by auto using later_valid. lia. Qed.

Lemma num_range : forall x, valid x ->
  year_start (dy x) + month_start (dy x) (dm x) <= num x < year_start (dy x) + month_start (dy x) (dm x) + month_days (dy x) (dm x).
Proof. intros x [A B]. unfold num. lia. Qed.
Lemma month_range : forall y m, 1 <= m <= 12 -> 0 <= month_start y m /\ month_start y m + month_days y m <= 365 + (if leap y then 1 else 0).
Proof.
  intros y m H. split.
  - destruct (Z.eq_dec m 1); [subst; rewrite month_first; lia|].
    pose proof (month_lt y 1 m). rewrite month_first in *. pose proof (month_pos y 1). lia.
  - destruct (Z.eq_dec m 12); [subst; rewrite month_last; lia|].
    pose proof (month_lt y m 12). pose proof (month_last y). pose proof (month_pos y 12). lia.
Qed.
Lemma num_inj : forall x z, valid x -> valid z -> num x = num z -> x = z.
Proof.
  intros x z V W E. pose proof (num_range x V) as R. pose proof (num_range z W) as S'.
  pose proof (month_range (dy x) (dm x) (proj1 V)). pose proof (month_range (dy z) (dm z) (proj1 W)).
  assert (Y : dy x = dy z).
  { destruct (Z_lt_le_dec (dy x) (dy z)) as [L|L]; [pose proof (year_lt _ _ L); lia|].
    destruct (Z_lt_le_dec (dy z) (dy x)) as [L'|L']; [pose proof (year_lt _ _ L'); lia|lia]. }
  assert (M : dm x = dm z).
  { rewrite Y in *. destruct V as [V _], W as [W _].
    destruct (Z_lt_le_dec (dm x) (dm z)) as [L|L]; [pose proof (month_lt (dy z) (dm x) (dm z)); lia|].
    destruct (Z_lt_le_dec (dm z) (dm x)) as [L'|L']; [pose proof (month_lt (dy z) (dm z) (dm x)); lia|lia]. }
  unfold num in E. destruct x as [xy xm xd], z as [zy zm zd]; cbn [dy dm dd] in *. subst. f_equal. lia.
Qed.

(** localtime inverts mktime: one era of 400 years by computation, the others by shifting *)
Definition civil_date (n : Z) : date := let '(y, m, d) := civil n in mkdate y m d.
Definition good_day (n : Z) : bool :=
  let x := civil_date n in
  (1 <=? dm x) && (dm x <=? 12) && (1 <=? dd x) && (dd x <=? month_days (dy x) (dm x)) && (num x =? n).
Fixpoint good_from (fuel : nat) (n : Z) : bool := match fuel with O => true | S f => good_day n && good_from f (n + 1) end.
Lemma good_era : good_from (Z.to_nat 146097) (-719468) = true.
Proof. vm_compute. reflexivity. Qed.
Lemma good_from_all : forall f n k, good_from f n = true -> n <= k < n + Z.of_nat f -> good_day k = true.
Proof.
  induction f; intros n k H K; [lia|]. cbn [good_from] in H. apply andb_prop in H. destruct H.
  destruct (Z.eq_dec k n); [subst; assumption|]. apply (IHf (n + 1)); [assumption|lia].
Qed.

Lemma leap_shift : forall y k, leap (y + k * 400) = leap y.
Proof.
  intros. unfold leap. replace ((y + k * 400) mod 4) with (y mod 4) by (replace (k * 400) with ((k * 100) * 4) by lia; now rewrite Z_mod_plus_full).
  replace ((y + k * 400) mod 100) with (y mod 100) by (replace (k * 400) with ((k * 4) * 100) by lia; now rewrite Z_mod_plus_full).
  now rewrite Z_mod_plus_full.
Qed.
Lemma year_shift : forall y k, year_start (y + k * 400) = year_start y + k * 146097.
Proof.
  intros. unfold year_start, leaps. replace (y + k * 400 - 1) with (y - 1 + k * 400) by lia.
  replace ((y - 1 + k * 400) / 4) with ((y - 1) / 4 + k * 100) by (replace (k * 400) with ((k * 100) * 4) by lia; now rewrite Z_div_plus_full by lia).
  replace ((y - 1 + k * 400) / 100) with ((y - 1) / 100 + k * 4) by (replace (k * 400) with ((k * 4) * 100) by lia; now rewrite Z_div_plus_full by lia).
  rewrite Z_div_plus_full by lia. lia.
Qed.
Lemma civil_shift : forall n k, civil_date (n + k * 146097) =
  mkdate (dy (civil_date n) + k * 400) (dm (civil_date n)) (dd (civil_date n)).
Proof.
  intros. unfold civil_date, civil. replace (n + k * 146097 + 719468) with (n + 719468 + k * 146097) by lia.
  rewrite Z_mod_plus_full, Z_div_plus_full by lia. cbn [dy dm dd]. f_equal. lia.
Qed.
Lemma num_shift : forall y m d k, num (mkdate (y + k * 400) m d) = num (mkdate y m d) + k * 146097.
Proof. intros. unfold num; cbn [dy dm dd]. rewrite year_shift, !month_start_eq, leap_shift. lia. Qed.
Lemma civil_good : forall n, valid (civil_date n) /\ num (civil_date n) = n.
Proof.
  intros n. set (k := (n + 719468) / 146097). set (r := n - k * 146097).
  assert (R : -719468 <= r < -719468 + 146097).
  { unfold r, k. pose proof (Z.div_mod (n + 719468) 146097 ltac:(lia)). pose proof (Z.mod_pos_bound (n + 719468) 146097 ltac:(lia)). lia. }
  assert (G : good_day r = true) by (apply (good_from_all _ _ _ good_era); rewrite Z2Nat.id by lia; lia).
  replace n with (r + k * 146097) by (unfold r; lia). rewrite civil_shift.
  unfold good_day in G. cbv zeta in G. destruct (civil_date r) as [y m d]; cbn [dy dm dd] in *.
  split.
  - unfold valid; cbn [dy dm dd]. assert (month_days (y + k * 400) m = month_days y m) as -> by (unfold month_days; now rewrite leap_shift). lia.
  - rewrite num_shift. lia.
Qed.
Lemma civil_num : forall x, valid x -> civil_date (num x) = x.
Proof. intros x V. destruct (civil_good (num x)). apply num_inj; assumption. Qed.

Lemma after_num : forall k x z, valid x -> valid z -> (days_after k x z <-> num z = num x + k).
Proof.
  intros k x z V W. unfold days_after. destruct (0 <=? k) eqn:E.
  - split; [intros ->; rewrite later_num by assumption; lia|]. intros H. apply num_inj; auto using later_valid.
    rewrite later_num by assumption. lia.
  - split; [intros ->; rewrite later_num by assumption; lia|]. intros H. apply num_inj; auto using later_valid.
    rewrite later_num by assumption. lia.
Qed.

(** from the number yyyymmdd back to its parts *)
Lemma idate_parts : forall x, valid x -> 0 <= dy x ->
  Z.quot (idate x) 10000 = dy x /\ Z.quot (Z.rem (idate x) 10000) 100 = dm x /\ Z.rem (idate x) 100 = dd x.
Proof.
  intros [y m d] [A B] Y; cbn [dy dm dd] in *. pose proof (month_pos y m). unfold idate; cbn [dy dm dd].
  assert (P : 0 <= y * 10000 + m * 100 + d) by lia.
  rewrite Z.quot_div_nonneg, !Z.rem_mod_nonneg by lia.
  assert (E : (y * 10000 + m * 100 + d) mod 10000 = m * 100 + d).
  { symmetry. apply Z.mod_unique with y; lia. }
  rewrite E. rewrite Z.quot_div_nonneg by lia. repeat split; symmetry.
  - apply Z.div_unique with (m * 100 + d); lia.
  - apply Z.div_unique with d; lia.
  - apply Z.mod_unique with (y * 100 + m); lia.
Qed.
Lemma make_idate : forall zone x, valid x -> 0 <= dy x -> make_time zone (idate x) 0 = num x * 86400 - zone.
Proof.
  intros zone x V Y. unfold make_time. destruct (idate_parts x V Y) as [-> [-> ->]].
  unfold mktime, day_number. destruct V as [M D].
  rewrite (Z.div_small (dm x - 1)), (Z.mod_small (dm x - 1)) by lia.
  replace (dm x - 1 + 1) with (dm x) by lia. rewrite (Z.add_0_r (dy x)). change (Z.quot 0 10000) with 0.
  change (Z.quot (Z.rem 0 10000) 100) with 0. change (Z.rem 0 100) with 0. unfold num. lia.
Qed.
Lemma get_num : forall now zone n, n * 86400 - zone <> 0 -> get_idate now zone (n * 86400 - zone) = idate (civil_date n).
Proof.
  intros now zone n H. unfold get_idate, time_check, local_day. destruct (_ =? 0) eqn:E; [lia|].
  replace (n * 86400 - zone + zone) with (n * 86400) by lia. rewrite Z.div_mul by lia.
  unfold idate, civil_date. destruct (civil n) as [[y m] d]. reflexivity.
Qed.
