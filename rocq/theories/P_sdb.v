(** Properties of stored time series: C62. *)
From Verif Require Import Base S_time S_table S_sdb M_time M_table M_sdb L_time L_sdb.
From Coq Require Import ZifyBool ZifyNat.

Lemma ms_range : forall s, 1000 <= s < 2 ^ 50 -> 0 < s / 1000 < LIM.
Proof. intros s H. unfold LIM. change (2 ^ 50) with 1125899906842624 in H. Z.to_euclidean_division_equations. lia. Qed.
Lemma kept_nothing : forall T, kept T (fun _ => []).
Proof. intros T d b []. Qed.
Lemma after_zero : forall (p : srec -> Prop) bs, (forall r, p r -> 0 < fst r) -> in_order bs -> Forall (Forall p) bs -> after 0 bs.
Proof.
  intros p [|[|r b] bs] H O F; [exact I| |].
  - cbn [in_order] in O. destruct O as [O _]. congruence.
  - inversion F as [|? ? F1 F2]; subst. inversion F1; subst. apply H. assumption.
Qed.
Lemma fits_pos : forall u v, fits u v -> 0 < v.
Proof. intros u v H. destruct u; cbn [fits] in H; lia. Qed.

Lemma search : forall now zone s e, 1000 <= s < 2 ^ 50 -> 1000 <= e < 2 ^ 50 ->
  get_idate now zone (search_start now zone s / 1000) = dno (day_no zone (s / 1000)) /\
  get_idate now zone (search_stop now zone e / 1000) = dno (day_no zone (e / 1000)).
Proof.
  intros now zone s e S E. pose proof (ms_range s S). pose proof (ms_range e E). unfold search_start, search_stop.
  destruct (s =? 0) eqn:X; [lia|]. destruct (e =? 0) eqn:Y; [lia|]. split; apply get_day; lia.
Qed.

(** Tables that count seconds, minutes or milliseconds, with one file per day.  If the batches are written in order of time,
    each beginning later than the one before ends, then reading a range gives, in order, exactly the records of the local
    days that the range touches.  What is missing: records of those days outside the range are returned too
    (C62_range_refuted); batches that overlap, touch or go back (C62_touch_refuted, C62_overlap_refuted, C62_back_refuted,
    C62_again_refuted); batches of more than one day in milliseconds (C62_msec_refuted); times after 2038. *)
Theorem C62_days_partial : forall now zone u bs s e,
  -86400 < zone < 86400 -> u <> Days -> Forall (good_batch zone u) bs -> in_order bs -> 1000 <= s < 2 ^ 50 -> 1000 <= e < 2 ^ 50 ->
  exists st f0, write_batches now zone (kind_of u) nothing bs = Some st /\
    forall fuel, (f0 <= fuel)%nat ->
      get_obj fuel now zone st s e =
        Some (some_of (filter (fun r => (day_no zone (s / 1000) <=? day_no zone (secs u (fst r))) &&
                                        (day_no zone (secs u (fst r)) <=? day_no zone (e / 1000))) (concat bs))).
Proof.
  intros now zone u bs s e HZ N G O S E.
  assert (A : after 0 bs).
  { apply (after_zero (fun r => fits u (fst r))); [intros r; apply fits_pos|exact O|]. eapply Forall_impl; [|exact G]. intros b [B _]. exact B. }
  destruct (batches_ok now zone u bs nothing 0 HZ N G O ltac:(lia) (kept_nothing 0) A) as [st [W [Y F]]].
  set (n0 := day_no zone (s / 1000)). set (n1 := day_no zone (e / 1000)).
  pose proof (day_range zone _ HZ (ms_range s S)) as R0. pose proof (day_range zone _ HZ (ms_range e E)) as R1.
  fold n0 in R0. fold n1 in R1.
  exists st, (Z.to_nat (n1 + 1 - n0) + Z.to_nat (Z.quot (dno n1) 10000 + 1 - Z.quot (dno n0) 10000))%nat. split; [exact W|].
  intros fuel FU. destruct (search now zone s e S E) as [E0 E1]. fold n0 in E0. fold n1 in E1.
  unfold get_obj. cbn zeta. rewrite E0, E1, year_blocks_ok by lia. rewrite Y. cbn [s_year nothing]. rewrite concat_nils.
  rewrite day_blocks_ok; [|lia| |lia].
  2:{ intros k K. apply (next_ok zone (s / 1000)); [exact HZ|pose proof (ms_range s S); lia|exact K]. }
  do 2 f_equal. change (concat (map b_recs ?l)) with (flat l). rewrite flat_concat.
  transitivity (concat (map (fun n => filter (fun r => day_no zone (secs u (fst r)) =? n) (concat bs)) (zrange (Z.to_nat (n1 + 1 - n0)) n0))).
  - f_equal. apply map_ext. intros n. rewrite F. cbn [s_date nothing flat map concat app]. apply filter_ext. intros r.
    unfold key_date. apply dno_inj.
  - rewrite (filter_range _ (fun r => day_no zone (secs u (fst r)))).
    + apply filter_ext. intros r. lia.
    + intros i j x y X1 Y1 L. apply day_le, secs_le. eapply nondecr_nth; eauto. now apply order_all.
Qed.
Print Assumptions C62_days_partial.

Example C62_days_ex :
  let day (t : Z) (l : list Z) := map (fun x => (t + x, [x])) l in
  let bs := [day 1600000000 [0; 5; 5; 40000]; day 1600041000 [0]; day 1600100000 [0; 90000; 200000]] in
  in_order bs /\ Forall (good_batch 28800 Seconds) bs /\
  match write_batches 1700000000 28800 K_TSEC nothing bs with
  | Some st => get_obj 100 1700000000 28800 st 1600012800000 1600099199999 = Some (Some (day 1600000000 [40000] ++ day 1600041000 [0]))
  | None => False
  end.
Proof.
  cbn zeta. split; [vm_compute; repeat split; try discriminate; reflexivity|]. split; [|vm_compute; reflexivity].
  repeat apply Forall_cons; try apply Forall_nil; (split; [repeat apply Forall_cons; try apply Forall_nil; cbn; lia|discriminate]).
Qed.

(** Tables that count days, with one file per year: the same with years. *)
Theorem C62_years_partial : forall now zone bs s e,
  -86400 < zone < 86400 -> Forall (Forall (fun r : srec => fits Days (fst r))) bs -> in_order bs -> 1000 <= s < 2 ^ 50 -> 1000 <= e < 2 ^ 50 ->
  exists st f0 y0 y1, write_batches now zone (kind_of Days) nothing bs = Some st /\
    year_of_no (day_no zone (s / 1000)) y0 /\ year_of_no (day_no zone (e / 1000)) y1 /\
    forall fuel, (f0 <= fuel)%nat ->
      get_obj fuel now zone st s e = Some (some_of (filter (fun r => (y0 <=? fst r / 10000) && (fst r / 10000 <=? y1)) (concat bs))).
Proof.
  intros now zone bs s e HZ G O S E.
  assert (A : after 0 bs) by (apply (after_zero (fun r => fits Days (fst r))); [intros r; apply fits_pos|exact O|exact G]).
  destruct (batches_year_ok now zone bs nothing 0 G O ltac:(lia) (kept_nothing 0) A) as [st [W [Y F]]].
  set (n0 := day_no zone (s / 1000)). set (n1 := day_no zone (e / 1000)).
  pose proof (day_range zone _ HZ (ms_range s S)) as R0. pose proof (day_range zone _ HZ (ms_range e E)) as R1.
  fold n0 in R0. fold n1 in R1.
  set (y0 := Z.quot (dno n0) 10000). set (y1 := Z.quot (dno n1) 10000).
  assert (YY : forall n, -365 <= n -> year_of_no n (Z.quot (dno n) 10000)).
  { intros n L. destruct (civil_good n) as [V C]. exists (civil_date n). split; [exact V|]. split.
    - apply after_num; [split; cbn; lia|exact V|]. rewrite C. reflexivity.
    - symmetry. now apply dno_year. }
  exists st, (Z.to_nat (n1 + 1 - n0) + Z.to_nat (y1 + 1 - y0))%nat, y0, y1. split; [exact W|].
  split; [apply YY; lia|]. split; [apply YY; lia|].
  intros fuel FU. destruct (search now zone s e S E) as [E0 E1]. fold n0 in E0. fold n1 in E1.
  unfold get_obj. cbn zeta. rewrite E0, E1. fold y0 y1. rewrite year_blocks_ok by lia.
  assert (FF : flat (concat (map (s_year st) (zrange (Z.to_nat (y1 + 1 - y0)) y0))) =
               filter (fun r : srec => (y0 <=? fst r / 10000) && (fst r / 10000 <=? y1)) (concat bs)).
  { rewrite flat_concat.
    transitivity (concat (map (fun n => filter (fun r : srec => fst r / 10000 =? n) (concat bs)) (zrange (Z.to_nat (y1 + 1 - y0)) y0))).
    - f_equal. apply map_ext. intros n. rewrite F. cbn [s_year nothing flat map concat app]. reflexivity.
    - rewrite (filter_range _ (fun r : srec => fst r / 10000)).
      + apply filter_ext. intros r. lia.
      + intros i j x y X1 Y1 L. apply Z.div_le_mono; [lia|]. eapply nondecr_nth; eauto. now apply order_all. }
  destruct (concat (map (s_year st) _)) as [|b l].
  - rewrite Y. cbn [s_date nothing]. rewrite day_blocks_ok; [|lia| |lia].
    2:{ intros k K. apply (next_ok zone (s / 1000)); [exact HZ|pose proof (ms_range s S); lia|exact K]. }
    rewrite concat_nils. exact (f_equal (fun x => Some (some_of x)) FF).
  - exact (f_equal (fun x => Some (some_of x)) FF).
Qed.
Print Assumptions C62_years_partial.

Example C62_years_ex :
  let day (l : list Z) := map (fun x => (x, [x mod 7])) l in
  let bs := [day [20191230; 20191231; 20200102]; day [20200103]; day [20210101; 20220101]] in
  in_order bs /\ Forall (Forall (fun r : srec => fits Days (fst r))) bs /\
  match write_batches 1700000000 28800 K_DATE nothing bs with
  | Some st => get_obj 2000 1700000000 28800 st 1577808000000 1611000000000 = Some (Some (day [20200102; 20200103; 20210101]))
  | None => False
  end.
Proof.
  cbn zeta. split; [vm_compute; repeat split; try discriminate; reflexivity|]. split; [|vm_compute; reflexivity].
  repeat (apply Forall_cons || apply Forall_nil); cbn; lia.
Qed.

(** Reading a range gives records outside the range: the time of day is not looked at. *)
Theorem C62_range_refuted : exists now zone b s e st l r,
  in_order [b] /\ good_batch zone Seconds b /\ s <= e /\
  write_batches now zone K_TSEC nothing [b] = Some st /\ get_obj 10 now zone st s e = Some (Some l) /\
  In r l /\ e < secs Seconds (fst r) * 1000.
Proof.
  set (b := [(1600000000, [1]); (1600003600, [2])]).
  exists 1700000000, 28800, b, 1600000000000, 1600000000999.
  destruct (write_batches 1700000000 28800 K_TSEC nothing [b]) as [st|] eqn:W; [|vm_compute in W; discriminate].
  exists st, b, (1600003600, [2]). split; [vm_compute; repeat split; try discriminate; reflexivity|].
  split; [split; [repeat apply Forall_cons; try apply Forall_nil; cbn; lia|discriminate]|].
  split; [lia|]. split; [exact W || reflexivity|]. vm_compute in W. injection W as <-. split; [vm_compute; reflexivity|].
  split; [right; left; reflexivity|cbn; lia].
Qed.
Print Assumptions C62_range_refuted.

(** A batch of two days in milliseconds: the record of the second day goes to the file of another date, because its time
    passes through an int; reading the two days does not give it. *)
Theorem C62_msec_refuted : exists now zone b s e st l r,
  in_order [b] /\ Forall (fun r => fits Milliseconds (fst r)) b /\
  write_batches now zone K_MSEC nothing [b] = Some st /\ get_obj 10 now zone st s e = Some (Some l) /\
  In r b /\ s <= fst r <= e /\ ~ In r l.
Proof.
  set (b := [(1600000000000, [1]); (1600000100000, [2]); (1600086400000, [3])]).
  exists 1700000000, 28800, b, 1600000000000, 1600090000000.
  destruct (write_batches 1700000000 28800 K_MSEC nothing [b]) as [st|] eqn:W; [|vm_compute in W; discriminate].
  exists st, [(1600000000000, [1])], (1600086400000, [3]). split; [vm_compute; repeat split; try discriminate; reflexivity|].
  split; [repeat apply Forall_cons; try apply Forall_nil; cbn; lia|].
  split; [exact W || reflexivity|]. vm_compute in W. injection W as <-. split; [vm_compute; reflexivity|].
  split; [right; right; left; reflexivity|]. split; [cbn; lia|]. intros [H|[]]. discriminate.
Qed.
Print Assumptions C62_msec_refuted.

(** A batch whose first record has the same time as the last one written: all records of the batch before are lost. *)
Theorem C62_touch_refuted : exists now zone b1 b2 s e st l,
  nondecr (map fst (b1 ++ b2)) /\ Forall (good_batch zone Seconds) [b1; b2] /\
  write_batches now zone K_TSEC nothing [b1; b2] = Some st /\ get_obj 10 now zone st s e = Some (Some l) /\
  Forall (fun r => s <= fst r * 1000 <= e) (b1 ++ b2) /\ Forall (fun r => ~ In r l) b1 /\ (2 <= List.length b1)%nat.
Proof.
  set (b1 := [(1600000000, [1]); (1600000001, [2]); (1600000002, [3])]). set (b2 := [(1600000002, [4])]).
  exists 1700000000, 28800, b1, b2, 1600000000000, 1600000003000.
  destruct (write_batches 1700000000 28800 K_TSEC nothing [b1; b2]) as [st|] eqn:W; [|vm_compute in W; discriminate].
  exists st, b2. split; [vm_compute; repeat split; try discriminate; reflexivity|].
  split; [repeat apply Forall_cons; try apply Forall_nil; (split; [repeat apply Forall_cons; try apply Forall_nil; cbn; lia|discriminate])|].
  split; [exact W || reflexivity|]. vm_compute in W. injection W as <-. split; [vm_compute; reflexivity|].
  split; [repeat apply Forall_cons; try apply Forall_nil; cbn; lia|].
  split; [|cbn; lia]. repeat apply Forall_cons; try apply Forall_nil; (intros [H|[]]; discriminate).
Qed.
Print Assumptions C62_touch_refuted.

(** A batch that overlaps an older one: records of the older one outside the time of the new one are lost. *)
Theorem C62_overlap_refuted : exists now zone b1 b2 s e st l r,
  nondecr (map fst b1) /\ nondecr (map fst b2) /\ Forall (good_batch zone Seconds) [b1; b2] /\
  write_batches now zone K_TSEC nothing [b1; b2] = Some st /\ get_obj 10 now zone st s e = Some (Some l) /\
  In r b1 /\ s <= fst r * 1000 <= e /\ Forall (fun r' => fst r < fst r') b2 /\ ~ In r l.
Proof.
  set (b1 := [(1600000000, [1]); (1600000005, [2])]). set (b2 := [(1600000003, [3]); (1600000008, [4])]).
  exists 1700000000, 28800, b1, b2, 1600000000000, 1600000009000.
  destruct (write_batches 1700000000 28800 K_TSEC nothing [b1; b2]) as [st|] eqn:W; [|vm_compute in W; discriminate].
  exists st, b2, (1600000000, [1]).
  do 2 (split; [vm_compute; repeat split; try discriminate; reflexivity|]).
  split; [repeat apply Forall_cons; try apply Forall_nil; (split; [repeat apply Forall_cons; try apply Forall_nil; cbn; lia|discriminate])|].
  split; [exact W || reflexivity|]. vm_compute in W. injection W as <-. split; [vm_compute; reflexivity|].
  split; [left; reflexivity|]. split; [cbn; lia|]. split; [repeat apply Forall_cons; try apply Forall_nil; cbn; lia|].
  intros [H|[H|[]]]; discriminate.
Qed.
Print Assumptions C62_overlap_refuted.

(** A batch that is not in order, its last record being earlier than its first, discards everything of that day. *)
Theorem C62_back_refuted : exists now zone b1 b2 s e st l r,
  in_order [b1] /\ Forall (good_batch zone Seconds) [b1; b2] /\
  write_batches now zone K_TSEC nothing [b1; b2] = Some st /\ get_obj 10 now zone st s e = Some (Some l) /\
  In r b1 /\ s <= fst r * 1000 <= e /\ Forall (fun r' => fst r < fst r') b2 /\ ~ In r l.
Proof.
  set (b1 := [(1600000000, [1]); (1600000001, [2])]). set (b2 := [(1600003600, [3]); (1600003599, [4])]).
  exists 1700000000, 28800, b1, b2, 1600000000000, 1600009000000.
  destruct (write_batches 1700000000 28800 K_TSEC nothing [b1; b2]) as [st|] eqn:W; [|vm_compute in W; discriminate].
  exists st, b2, (1600000000, [1]).
  split; [vm_compute; repeat split; try discriminate; reflexivity|].
  split; [repeat apply Forall_cons; try apply Forall_nil; (split; [repeat apply Forall_cons; try apply Forall_nil; cbn; lia|discriminate])|].
  split; [exact W || reflexivity|]. vm_compute in W. injection W as <-. split; [vm_compute; reflexivity|].
  split; [left; reflexivity|]. split; [cbn; lia|]. split; [repeat apply Forall_cons; try apply Forall_nil; cbn; lia|].
  intros [H|[H|[]]]; discriminate.
Qed.
Print Assumptions C62_back_refuted.

(** Records written one by one, and then the same series again as one batch: the old copy of a record in the middle stays,
    and comes first. *)
Theorem C62_again_refuted : exists now zone bs s e st l r,
  in_order bs /\ Forall (good_batch zone Seconds) (bs ++ [concat bs]) /\
  write_batches now zone K_TSEC nothing (bs ++ [concat bs]) = Some st /\ get_obj 10 now zone st s e = Some (Some l) /\
  count_occ (list_eq_dec Z.eq_dec) (map (fun x => fst x :: snd x) l) (fst r :: snd r) = 2%nat /\
  count_occ (list_eq_dec Z.eq_dec) (map (fun x => fst x :: snd x) (concat bs)) (fst r :: snd r) = 1%nat /\ ~ nondecr (map fst l).
Proof.
  set (bs := [[(1600000000, [1])]; [(1600000001, [2])]; [(1600000002, [3])]]).
  exists 1700000000, 28800, bs, 1600000000000, 1600000009000.
  destruct (write_batches 1700000000 28800 K_TSEC nothing (bs ++ [concat bs])) as [st|] eqn:W; [|vm_compute in W; discriminate].
  exists st, ((1600000001, [2]) :: concat bs), (1600000001, [2]).
  split; [vm_compute; repeat split; try discriminate; reflexivity|].
  split; [cbn; repeat apply Forall_cons; try apply Forall_nil; (split; [repeat apply Forall_cons; try apply Forall_nil; cbn; lia|discriminate])|].
  split; [exact W || reflexivity|]. vm_compute in W. injection W as <-. split; [vm_compute; reflexivity|].
  split; [vm_compute; reflexivity|]. split; [vm_compute; reflexivity|]. cbn. lia.
Qed.
Print Assumptions C62_again_refuted.
