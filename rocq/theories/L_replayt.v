(** Lemmas on the times in the replay of stored series. *)
From Verif Require Import Base M_time S_time L_time S_table M_table S_sdb L_sdb S_replay M_replay L_replay.
From Coq Require Import ZifyBool ZifyNat.

Lemma end_of_day : forall zone x, valid x -> 0 <= dy x -> make_time zone (idate x) 235959 = num x * 86400 + 86399 - zone.
Proof.
  intros zone x V Y. unfold make_time. destruct (idate_parts x V Y) as [-> [-> ->]].
  unfold mktime, day_number. destruct V as [M D].
  rewrite (Z.div_small (dm x - 1)), (Z.mod_small (dm x - 1)) by lia.
  replace (dm x - 1 + 1) with (dm x) by lia. rewrite (Z.add_0_r (dy x)). change (Z.quot 235959 10000) with 23.
  change (Z.quot (Z.rem 235959 10000) 100) with 59. change (Z.rem 235959 100) with 59. unfold num. lia.
Qed.
Lemma day_bounds : forall x, valid x -> 1971 <= dy x < 2038 -> 365 <= num x < 24837.
Proof.
  intros x V Y. pose proof (num_range x V). pose proof (month_range (dy x) (dm x) (proj1 V)).
  pose proof (year_start_low (dy x) ltac:(lia)). assert (E : year_start 2038 = 24837) by reflexivity. pose proof (year_lt (dy x) 2038 ltac:(lia)). lia.
Qed.
Lemma days_num : forall n x, valid x -> days_after n (mkdate 1970 1 1) x -> n = num x.
Proof.
  intros n x V H. apply (proj1 (after_num n (mkdate 1970 1 1) x ltac:(unfold valid; cbn; lia) V)) in H.
  change (num (mkdate 1970 1 1)) with 0 in H. lia.
Qed.

(** what the sort key is, and what the record's time is *)
Section Key.
Variables now zone : Z.
Hypothesis Z1 : -86400 < zone < 86400.
Hypothesis Z2 : zone mod 60 = 0.

Definition endsec (x : date) : Z := num x * 86400 + 86399 - zone.
Lemma endsec_range : forall x, valid x -> 1971 <= dy x < 2038 -> 0 < endsec x < 2 ^ 32.
Proof. intros x V Y. pose proof (day_bounds x V Y). unfold endsec. change (2 ^ 32) with 4294967296. lia. Qed.
Lemma endsec_min : forall x, endsec x = endsec x / 60 * 60 + 59.
Proof. intros x. unfold endsec. Z.to_euclidean_division_equations. lia. Qed.
Lemma u64 : forall v, 0 <= v < 2 ^ 63 -> to_u 64 v = v.
Proof. intros. apply to_u_64. assumption. Qed.

(** the time of a record in the unit [scale] and its last millisecond *)
Definition at_scale (scale e k : Z) : Prop :=
  (scale = K_MSEC /\ e = k) \/ (scale = K_TSEC /\ e = k * 1000 + 999) \/ (scale = K_MINU /\ e = k * 60000 + 59999) \/
  (scale = K_DATE /\ exists x, valid x /\ 1971 <= dy x < 2038 /\ k = idate x /\ e = endsec x * 1000 + 999).

Lemma key_end : forall scale u r e, right_time (Some u) (fst r) -> ends zone (Some u) (fst r) e -> kind_of u <= scale ->
  (scale = K_MSEC \/ scale = K_TSEC \/ scale = K_MINU \/ scale = K_DATE) -> (scale = K_TSEC -> u <> Minutes) ->
  0 < vmsec now zone scale (Some u) r /\ 0 < e /\ at_scale scale e (vmsec now zone scale (Some u) r).
Proof.
  intros scale u [v d] e RT EN KS SC NM. cbn [fst] in *. unfold vmsec, at_scale. cbn [fst].
  unfold K_MSEC, K_TSEC, K_MINU, K_DATE in *.
  destruct u; cbn [kind_of right_time ends fits] in *; unfold K_MSEC, K_TSEC, K_MINU, K_DATE in KS.
  - change (2 ^ 31) with 2147483648 in RT.
    destruct SC as [-> | [-> | [-> | ->]]]; try lia; cbv [time_convert K_TSEC K_MSEC K_MINU K_DATE]; cbn [Z.eqb Pos.eqb].
    + rewrite u64 by lia. subst e. split; [lia|]. split; [lia|]. left. lia.
    + subst e. split; [lia|]. split; [lia|]. right. left. lia.
  - change (2 ^ 50) with 1125899906842624 in RT. destruct SC as [-> | [-> | [-> | ->]]]; try lia; cbv [time_convert K_TSEC K_MSEC K_MINU K_DATE]; cbn [Z.eqb Pos.eqb].
    subst e. split; [lia|]. split; [lia|]. left. lia.
  - change (2 ^ 31) with 2147483648 in RT.
    destruct SC as [-> | [-> | [-> | ->]]]; try lia; cbv [time_convert K_TSEC K_MSEC K_MINU K_DATE]; cbn [Z.eqb Pos.eqb].
    + rewrite u64 by lia. subst e. split; [lia|]. split; [lia|]. left. lia.
    + exfalso. now apply NM.
    + subst e. split; [lia|]. split; [lia|]. right. right. left. lia.
  - destruct RT as (x & V & Y & E). destruct EN as (x' & n & V' & E' & DA & EE).
    assert (x' = x).
    { apply num_inj; [assumption|assumption|]. destruct (Z_lt_le_dec (num x') (num x)) as [L|L]; [pose proof (idate_lt x' x V' V L); lia|].
      destruct (Z_lt_le_dec (num x) (num x')) as [L'|L']; [pose proof (idate_lt x x' V V' L'); lia|lia]. }
    subst x'. apply (days_num n x V) in DA. subst n v.
    assert (E2 : e = endsec x * 1000 + 999) by (unfold endsec; lia). clear EE.
    pose proof (endsec_range x V Y) as ER. pose proof (endsec_min x) as EM. change (2 ^ 32) with 4294967296 in ER.
    assert (MT : make_time zone (idate x) 235959 = endsec x) by (apply end_of_day; [exact V|lia]).
    assert (IP : 0 < idate x) by (unfold idate; destruct V; lia).
    destruct SC as [-> | [-> | [-> | ->]]]; cbv [time_convert K_TSEC K_MSEC K_MINU K_DATE]; cbn [Z.eqb Pos.eqb]; try rewrite MT.
    + rewrite u64 by lia. split; [lia|]. split; [lia|]. left. lia.
    + rewrite u64 by lia. split; [lia|]. split; [lia|]. right. left. lia.
    + assert (365 * 86400 - 86400 < endsec x) by (pose proof (day_bounds x V Y); unfold endsec; lia).
      rewrite u64 by (Z.to_euclidean_division_equations; lia). split; [Z.to_euclidean_division_equations; lia|]. split; [lia|]. right. right. left. lia.
    + split; [exact IP|]. split; [lia|]. right. right. right. split; [reflexivity|]. exists x. auto.
Qed.
Lemma at_scale_lt : forall scale e k e' k', at_scale scale e k -> at_scale scale e' k' -> (k < k' -> e < e') /\ (k = k' -> e = e').
Proof.
  intros scale e k e' k' H H'. unfold at_scale, K_MSEC, K_TSEC, K_MINU, K_DATE in *.
  destruct H as [H|[H|[H|(H & x & V & Y & A & B)]]]; destruct H' as [H'|[H'|[H'|(H' & x' & V' & Y' & A' & B')]]]; try lia.
  subst. destruct (Z_lt_le_dec (num x) (num x')) as [L|L].
  - pose proof (idate_lt x x' V V' L). unfold endsec. lia.
  - destruct (Z_lt_le_dec (num x') (num x)) as [L'|L']; [pose proof (idate_lt x' x V' V L'); lia|].
    assert (x = x') by (apply num_inj; [assumption|assumption|lia]). subst. lia.
Qed.

(** every record of a right time has a last millisecond *)
Lemma ends_exists : forall u v, right_time u v -> exists e, ends zone u v e.
Proof.
  intros [u|] v H; [|exists 0; reflexivity]. destruct u; cbn in *; eauto.
  destruct H as (x & V & Y & ->). exists ((num x + 1) * 86400000 - zone * 1000 - 1), x, (num x).
  split; [exact V|]. split; [reflexivity|]. split; [|reflexivity].
  apply after_num; [unfold valid; cbn; lia|exact V|]. change (num (mkdate 1970 1 1)) with 0. lia.
Qed.

Lemma scale_start : forall l c, 0 <= c -> fold_left (fun c s => match s_unit s with Some u => Z.max (kind_of u) c | None => c end) l c =
  Z.max c (scale_of l).
Proof.
  assert (G : forall l a b, 0 <= b -> fold_left (fun c s => match s_unit s with Some u => Z.max (kind_of u) c | None => c end) l (Z.max a b) =
    Z.max a (fold_left (fun c s => match s_unit s with Some u => Z.max (kind_of u) c | None => c end) l b)).
  { induction l as [|s l IH]; intros a b H; [reflexivity|]. cbn [fold_left]. destruct (s_unit s) as [u|]; [|apply IH; exact H].
    replace (Z.max (kind_of u) (Z.max a b)) with (Z.max a (Z.max (kind_of u) b)) by lia. apply IH. lia. }
  intros l c H. unfold scale_of. rewrite <- (G l c 0) by lia. f_equal. lia.
Qed.
Lemma scale_cons : forall s l, scale_of (s :: l) = match s_unit s with Some u => Z.max (kind_of u) (scale_of l) | None => scale_of l end.
Proof.
  intros s l. unfold scale_of at 1. cbn [fold_left]. destruct (s_unit s) as [u|]; [|reflexivity]. assert (0 < kind_of u) by (destruct u; reflexivity).
  rewrite scale_start by lia. lia.
Qed.
Lemma scale_ge : forall l s u, In s l -> s_unit s = Some u -> kind_of u <= scale_of l.
Proof.
  induction l as [|a l IH]; intros s u I E; [destruct I|]. rewrite scale_cons. destruct I as [->|I].
  - rewrite E. lia.
  - specialize (IH s u I E). destruct (s_unit a); lia.
Qed.
Lemma scale_in : forall l, scale_of l = 0 \/ exists u, has_unit u l /\ scale_of l = kind_of u.
Proof.
  induction l as [|a l IH]; [left; reflexivity|]. rewrite scale_cons. destruct (s_unit a) as [u|] eqn:E.
  - right. destruct (Z_le_gt_dec (scale_of l) (kind_of u)) as [H|H].
    + exists u. split; [exists a; split; [left; reflexivity|exact E]|lia].
    + destruct IH as [IH|(w & (s & S1 & S2) & IH)]; [assert (0 < kind_of u) by (destruct u; reflexivity); lia|].
      exists w. split; [exists s; split; [right; exact S1|exact S2]|lia].
  - destruct IH as [IH|(w & (s & S1 & S2) & IH)]; [left; exact IH|]. right. exists w. split; [exists s; split; [right; exact S1|exact S2]|exact IH].
Qed.

Section Series.
Variable l : list series.
Hypothesis MIX : has_unit Minutes l -> has_unit Seconds l -> has_unit Milliseconds l.
Lemma scale_case : forall s u, In s l -> s_unit s = Some u ->
  (scale_of l = K_MSEC \/ scale_of l = K_TSEC \/ scale_of l = K_MINU \/ scale_of l = K_DATE) /\ (scale_of l = K_TSEC -> u <> Minutes).
Proof.
  intros s u I E. pose proof (scale_ge l s u I E) as G. assert (P : 0 < kind_of u) by (destruct u; reflexivity).
  destruct (scale_in l) as [H|(w & W & H)]; [lia|]. split.
  - rewrite H. destruct w; cbn; auto.
  - intros H2 ->. assert (w = Seconds) by (rewrite H in H2; destruct w; cbv in H2; try discriminate; reflexivity). subst w.
    destruct (MIX (ex_intro _ s (conj I E)) W) as (t & T1 & T2). pose proof (scale_ge l t _ T1 T2) as G2. rewrite H in G2. cbn in G2. unfold K_MSEC, K_TSEC in G2. lia.
Qed.
Notation vms := (vmsec now zone (scale_of l)).
Lemma key_order : forall s t a b ea eb, In s l -> In t l -> right_time (s_unit s) (fst a) -> right_time (s_unit t) (fst b) ->
  ends zone (s_unit s) (fst a) ea -> ends zone (s_unit t) (fst b) eb ->
  (vms (s_unit s) a < vms (s_unit t) b -> ea < eb) /\ (vms (s_unit s) a = vms (s_unit t) b -> ea = eb).
Proof.
  intros s t a b ea eb IS IT RA RB EA EB. destruct (s_unit s) as [u|] eqn:ES; destruct (s_unit t) as [w|] eqn:ET.
  - destruct (scale_case s u IS ES) as [C1 C2]. destruct (scale_case t w IT ET) as [_ C4].
    destruct (key_end (scale_of l) u a ea RA EA (scale_ge l s u IS ES) C1 C2) as (_ & _ & X).
    destruct (key_end (scale_of l) w b eb RB EB (scale_ge l t w IT ET) C1 C4) as (_ & _ & Y).
    exact (at_scale_lt _ _ _ _ _ X Y).
  - destruct (scale_case s u IS ES) as [C1 C2].
    destruct (key_end (scale_of l) u a ea RA EA (scale_ge l s u IS ES) C1 C2) as (P & _ & X). cbn [vmsec] in *. lia.
  - destruct (scale_case t w IT ET) as [C1 C2].
    destruct (key_end (scale_of l) w b eb RB EB (scale_ge l t w IT ET) C1 C2) as (P & P2 & X). cbn [ends] in EA. change (vms None a) with 0. lia.
  - cbn [ends] in *. change (vms None a) with 0. change (vms None b) with 0. lia.
Qed.
(** records in order of their times are in order of their keys *)
Lemma key_sorted : forall s q, In s l -> nondecr (map fst q) -> Forall (fun r => right_time (s_unit s) (fst r)) q ->
  nondecr (map (vms (s_unit s)) q).
Proof.
  intros s q IS. induction q as [|a q IH]; intros N F; [exact Logic.I|]. inversion F as [|? ? F1 F2]; subst.
  destruct q as [|b q]; [exact Logic.I|]. destruct N as [N1 N2]. inversion F2 as [|? ? F3 F4]; subst.
  split; [|exact (IH N2 F2)].
  destruct (ends_exists _ _ F1) as (ea & EA). destruct (ends_exists _ _ F3) as (eb & EB).
  destruct (key_order s s a b ea eb IS IS F1 F3 EA EB) as [A B].
  destruct (key_order s s b a eb ea IS IS F3 F1 EB EA) as [A' B'].
  destruct (Z_lt_le_dec (vms (s_unit s) b) (vms (s_unit s) a)) as [L|L]; [|exact L].
  specialize (A' L). exfalso. destruct (s_unit s) as [u|]; [|cbn [vmsec] in L; lia].
  destruct u; cbn [ends] in *; try lia.
  destruct EA as (x & n & V & E1 & DA & E2), EB as (x' & n' & V' & E1' & DA' & E2').
  apply (days_num _ _ V) in DA. apply (days_num _ _ V') in DA'. subst.
  assert (LN : num x' < num x) by lia. pose proof (idate_lt x' x V' V LN). lia.
Qed.
End Series.
End Key.
