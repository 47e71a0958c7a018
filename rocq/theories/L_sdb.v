(** Lemmas for the stored time series. *)
From Verif Require Import Base S_time M_time L_time S_table M_table S_sdb M_sdb.
From Coq Require Import ZifyBool ZifyNat.

(** * lists in order *)
Lemma nondecr_cons : forall a l, nondecr (a :: l) <-> (Forall (fun b => a <= b) l /\ nondecr l).
Proof.
  intros a l. revert a. induction l as [|b l IH]; intros a.
  - split; [split; [constructor|exact I]|reflexivity].
  - change (nondecr (a :: b :: l)) with (a <= b /\ nondecr (b :: l)). rewrite IH. split.
    + intros [A [B C]]. split; [constructor; [exact A|]|split; assumption]. eapply Forall_impl; [|exact B]. cbn; intros; lia.
    + intros [A [B C]]. inversion A; subst. split; [assumption|split; assumption].
Qed.
Lemma nondecr_app : forall l m, nondecr (l ++ m) <-> (nondecr l /\ nondecr m /\ forall a b, In a l -> In b m -> a <= b).
Proof.
  induction l as [|x l IH]; intros m; cbn [app].
  - split; [intros H; split; [exact I|split; [exact H|intros ? ? []]]|intros [_ [H _]]; exact H].
  - rewrite !nondecr_cons, IH, Forall_app, !Forall_forall. split.
    + intros [[A B] [C [D E]]]. split; [split; assumption|]. split; [assumption|].
      intros a b [<-|K] M; [apply B, M|apply E; assumption].
    + intros [[A B] [C D]]. split; [split; [exact A|]|split; [exact B|split; [exact C|]]].
      * intros z Z1. apply D; [left; reflexivity|assumption].
      * intros a b K M. apply D; [right; assumption|assumption].
Qed.
Lemma last_in : forall (l : list Z) d, l <> [] -> In (last l d) l.
Proof.
  induction l as [|a l IH]; intros d H; [congruence|]. destruct l as [|b l]; [left; reflexivity|].
  right. change (last (a :: b :: l) d) with (last (b :: l) d). apply IH. discriminate.
Qed.
Lemma last_app : forall (l m : list Z) d, m <> [] -> last (l ++ m) d = last m d.
Proof.
  induction l as [|a l IH]; intros m d H; [reflexivity|]. cbn [app]. destruct (l ++ m) eqn:E.
  - destruct l; [cbn in E; congruence|discriminate].
  - rewrite <- E. rewrite <- (IH m d H). rewrite E. reflexivity.
Qed.
Lemma nondecr_last : forall l a d, nondecr l -> In a l -> a <= last l d.
Proof.
  induction l as [|b l IH]; intros a d N I; [destruct I|].
  apply nondecr_cons in N. destruct N as [F N]. destruct l as [|c l].
  - destruct I as [<-|[]]. cbn. lia.
  - change (last (b :: c :: l) d) with (last (c :: l) d). destruct I as [<-|I].
    + rewrite Forall_forall in F. assert (In (last (c :: l) d) (c :: l)) by (apply last_in; discriminate). apply F. assumption.
    + apply IH; assumption.
Qed.
Lemma nondecr_first : forall (x : list srec) r, nondecr (map fst x) -> In r x -> first_time x <= fst r.
Proof.
  intros [|a x] r N I; [destruct I|]. unfold first_time; cbn [map hd] in *. apply nondecr_cons in N. destruct N as [F _].
  destruct I as [<-|I]; [lia|]. rewrite Forall_forall in F. apply F, in_map, I.
Qed.
Lemma nondecr_last' : forall (x : list srec) r, nondecr (map fst x) -> In r x -> fst r <= last_time x.
Proof. intros x r N I. unfold last_time. apply nondecr_last; [exact N|apply in_map, I]. Qed.

(** * blocks *)
Definition flat (l : list block) : list srec := concat (map b_recs l).
Definition kept (T : Z) (f : Z -> list block) : Prop := forall d b, In b (f d) -> b_start b <= b_stop b <= T.
Fixpoint chain (T : Z) (l : list (Z * list srec)) : Prop :=
  match l with
  | [] => True
  | (d, x) :: l' => x <> [] /\ T < first_time x /\ first_time x <= last_time x /\ chain (last_time x) l'
  end.
Fixpoint ending (T : Z) (l : list (Z * list srec)) : Z := match l with [] => T | (d, x) :: l' => ending (last_time x) l' end.

Lemma merge_later : forall T start stop l, 0 <= T -> T < start -> start <= stop ->
  (forall b, In b l -> b_start b <= b_stop b <= T) -> merge start stop l = l.
Proof.
  intros T start stop l P A B H. unfold merge. replace (_ || _) with false by lia.
  induction l as [|b l IH]; [reflexivity|]. cbn [filter]. specialize (H b (or_introl eq_refl)) as Hb.
  unfold is_mixed. replace ((start =? b_stop b) || (b_start b =? stop)) with false by lia.
  replace ((start >? b_stop b) || (b_start b >? stop)) with true by lia. cbn [negb]. f_equal. apply IH. intros. apply H. now right.
Qed.
Lemma flat_app : forall a b, flat (a ++ b) = flat a ++ flat b.
Proof. intros. unfold flat. now rewrite map_app, concat_app. Qed.

Lemma put_all_ok : forall l f T, 0 <= T -> kept T f -> chain T l ->
  (forall d, flat (put_all f l d) = flat (f d) ++ concat (map snd (filter (fun p => fst p =? d) l))) /\
  kept (ending T l) (put_all f l) /\ T <= ending T l.
Proof.
  induction l as [|[k x] l IH]; intros f T P K C.
  - split; [|split; [exact K|cbn; lia]]. intros d. cbn. now rewrite app_nil_r.
  - cbn [chain] in C. destruct C as [N [A [B C]]]. cbn [ending].
    change (put_all f ((k, x) :: l)) with (put_all (put f k (write_block (f k) x)) l).
    set (g := put f k (write_block (f k) x)).
    assert (W : write_block (f k) x = f k ++ [mkblk (first_time x) (last_time x) x]).
    { unfold write_block. rewrite (merge_later T); [reflexivity|lia|lia|lia|]. intros b I. exact (K k b I). }
    assert (K2 : kept (last_time x) g).
    { intros d b I. unfold g, put in I. destruct (d =? k) eqn:E.
      - rewrite W in I. apply in_app_or in I. destruct I as [I|[<-|[]]]; [|cbn; lia]. apply K in I. lia.
      - apply K in I. lia. }
    destruct (IH g (last_time x) ltac:(lia) K2 C) as [F [K3 L3]]. split; [|split; [exact K3|lia]].
    intros d. rewrite F. cbn [filter fst]. unfold g, put. rewrite (Z.eqb_sym k d). destruct (d =? k) eqn:E.
    + rewrite W, flat_app. cbn [map snd concat]. assert (d = k) by lia. subst d. rewrite <- app_assoc. f_equal.
      unfold flat. cbn [map b_recs concat]. now rewrite app_nil_r.
    + reflexivity.
Qed.

Definition keyed (key : srec -> Z) (l : list (Z * list srec)) : Prop :=
  Forall (fun p => Forall (fun r => key r = fst p) (snd p)) l.
Lemma filter_none : forall A (p : A -> bool) l, (forall a, In a l -> p a = false) -> filter p l = [].
Proof. induction l as [|a l IH]; intros H; [reflexivity|]. cbn [filter]. rewrite (H a (or_introl eq_refl)). apply IH. intros. apply H. now right. Qed.
Lemma filter_every : forall A (p : A -> bool) l, (forall a, In a l -> p a = true) -> filter p l = l.
Proof. induction l as [|a l IH]; intros H; [reflexivity|]. cbn [filter]. rewrite (H a (or_introl eq_refl)). f_equal. apply IH. intros. apply H. now right. Qed.
Lemma keyed_filter : forall key l d, keyed key l ->
  concat (map snd (filter (fun p => fst p =? d) l)) = filter (fun r => key r =? d) (concat (map snd l)).
Proof.
  intros key. induction l as [|[k x] l IH]; intros d K; [reflexivity|]. inversion K as [|? ? K1 K2]; subst.
  cbn [map snd concat fst filter]. rewrite filter_app, <- IH by exact K2. cbn [fst snd] in K1. rewrite Forall_forall in K1. destruct (k =? d) eqn:E.
  - cbn [map snd concat]. f_equal. symmetry. apply filter_every. intros a I. rewrite (K1 a I). exact E.
  - rewrite (filter_none _ _ x); [reflexivity|]. intros a I. rewrite (K1 a I). exact E.
Qed.

(** * the loop that cuts a batch *)
Lemma first_app : forall (x y : list srec), x <> [] -> first_time (x ++ y) = first_time x.
Proof. intros [|a x] y H; [congruence|reflexivity]. Qed.
Lemma last_time_app : forall (x y : list srec), y <> [] -> last_time (x ++ y) = last_time y.
Proof. intros x y H. unfold last_time. rewrite map_app. apply last_app. destruct y; [congruence|discriminate]. Qed.
Lemma last_time_in : forall x : list srec, x <> [] -> exists r, In r x /\ fst r = last_time x.
Proof.
  intros x H. assert (I : In (last (map fst x) 0) (map fst x)) by (apply last_in; destruct x; [congruence|discriminate]).
  apply in_map_iff in I. destruct I as [r [E I]]. exists r. split; assumption.
Qed.
Lemma first_last : forall x : list srec, x <> [] -> nondecr (map fst x) -> first_time x <= last_time x.
Proof. intros x H N. destruct (last_time_in x H) as [r [I E]]. rewrite <- E. now apply nondecr_first. Qed.

Definition small (d : Z) : Prop := 0 <= d < 2 ^ 31.
Lemma runs_ok : forall same conv (q : Z -> Z) l nowday cur T,
  (forall a b, small a -> small b -> same a b = (q a =? q b)) ->
  small nowday -> Forall (fun r => small (conv (fst r))) l -> cur <> [] -> nondecr (map fst (cur ++ l)) -> T < first_time cur ->
  Forall (fun r => q (conv (fst r)) = q nowday) cur ->
  let L := map (fun '(d, x) => (q d, x)) (runs same conv nowday cur l) in
  chain T L /\ keyed (fun r => q (conv (fst r))) L /\ concat (map snd L) = cur ++ l /\ ending T L = last_time (cur ++ l).
Proof.
  intros same conv q. induction l as [|r l IH]; intros nowday cur T HS SN SL NE ND TT FC; cbn zeta; cbn [runs].
  - rewrite app_nil_r in *. cbn [map chain snd concat ending]. rewrite app_nil_r. split; [|split; [|split; reflexivity]].
    + split; [exact NE|]. split; [exact TT|]. split; [now apply first_last|exact I].
    + constructor; [exact FC|constructor].
  - inversion SL as [|? ? S1 S2]; subst. rewrite HS by assumption. destruct (q (conv (fst r)) =? q nowday) eqn:E.
    + assert (X : cur ++ r :: l = (cur ++ [r]) ++ l) by now rewrite <- app_assoc.
      rewrite X in *. apply IH; auto.
      * destruct cur; discriminate.
      * rewrite first_app by exact NE. exact TT.
      * apply Forall_app. split; [exact FC|]. constructor; [lia|constructor].
    + pose proof ND as ND0. rewrite map_app in ND0. apply nondecr_app in ND0. destruct ND0 as [N1 [N2 N3]].
      destruct (last_time_in cur NE) as [c [C1 C2]].
      assert (LT : last_time cur < fst r).
      { assert (fst c <= fst r) by (apply N3; [apply in_map, C1|left; reflexivity]).
        assert (fst c <> fst r); [|lia]. intros EE. rewrite Forall_forall in FC. specialize (FC c C1). rewrite EE in FC. lia. }
      destruct (IH (conv (fst r)) [r] (last_time cur) HS S1 S2 ltac:(discriminate) N2 LT ltac:(constructor; [reflexivity|constructor])) as [I1 [I2 [I3 I4]]].
      cbn [map chain keyed snd concat ending fst]. split; [|split; [|split]].
      * split; [exact NE|]. split; [exact TT|]. split; [|exact I1]. apply first_last; assumption.
      * constructor; [exact FC|exact I2].
      * exact (f_equal (app cur) I3).
      * etransitivity; [exact I4|]. cbn [app]. rewrite last_time_app by discriminate. reflexivity.
Qed.
Lemma one_ok : forall key (d : Z) x T, x <> [] -> nondecr (map fst x) -> T < first_time x -> Forall (fun r => key r = d) x ->
  let L := [(d, x)] in chain T L /\ keyed key L /\ concat (map snd L) = x /\ ending T L = last_time x.
Proof.
  intros key d x T NE ND TT F. cbn [map chain snd concat ending]. rewrite app_nil_r. split; [|split; [|split; reflexivity]].
  - split; [exact NE|]. split; [exact TT|]. split; [now apply first_last|exact I].
  - constructor; [exact F|constructor].
Qed.

(** * dates *)
Lemma year_start_low : forall y, 1970 <= y -> 365 * (y - 1970) <= year_start y.
Proof. intros y H. unfold year_start, leaps. Z.to_euclidean_division_equations. lia. Qed.
Lemma civil_year : forall n, -365 <= n -> 1969 <= dy (civil_date n) <= Z.max 0 n / 365 + 1970.
Proof.
  intros n H. destruct (civil_good n) as [V E]. pose proof (num_range _ V) as R. pose proof (month_range (dy (civil_date n)) (dm (civil_date n)) (proj1 V)) as M.
  rewrite E in R. set (y := dy (civil_date n)) in *. split.
  - destruct (Z_lt_le_dec y 1969) as [L|]; [|assumption]. pose proof (year_lt y 1969 L). change (year_start 1969) with (-365) in *. lia.
  - destruct (Z_lt_le_dec y 1970); [Z.to_euclidean_division_equations; lia|]. pose proof (year_start_low y ltac:(lia)).
    assert (365 * (y - 1970) <= n) by lia. Z.to_euclidean_division_equations. lia.
Qed.
Lemma idate_lt : forall x z, valid x -> valid z -> num x < num z -> idate x < idate z.
Proof.
  intros x z V W L. pose proof (num_range x V) as R. pose proof (num_range z W) as S'.
  pose proof (month_range (dy x) (dm x) (proj1 V)). pose proof (month_range (dy z) (dm z) (proj1 W)).
  pose proof (month_pos (dy x) (dm x)). pose proof (month_pos (dy z) (dm z)).
  destruct V as [V1 V2], W as [W1 W2]. unfold idate.
  destruct (Z_lt_le_dec (dy x) (dy z)); [lia|]. destruct (Z_lt_le_dec (dy z) (dy x)) as [Y|].
  { pose proof (year_lt _ _ Y). lia. }
  assert (Y : dy x = dy z) by lia. rewrite Y in *.
  destruct (Z_lt_le_dec (dm x) (dm z)); [lia|]. destruct (Z_lt_le_dec (dm z) (dm x)) as [M|].
  { pose proof (month_lt (dy z) (dm z) (dm x)). lia. }
  assert (M : dm x = dm z) by lia. unfold num in L. rewrite Y, M in *. lia.
Qed.
(** the number of a day, as the files are named *)
Definition dno (n : Z) : Z := idate (civil_date n).
Lemma dno_lt : forall a b, a < b -> dno a < dno b.
Proof. intros a b L. destruct (civil_good a) as [V E], (civil_good b) as [W F]. apply idate_lt; [assumption|assumption|lia]. Qed.
Lemma dno_le : forall a b, a <= b -> dno a <= dno b.
Proof. intros a b L. destruct (Z.eq_dec a b); [subst; lia|]. pose proof (dno_lt a b). lia. Qed.
Lemma dno_inj : forall a b, (dno a =? dno b) = (a =? b).
Proof.
  intros a b. destruct (Z.eq_dec a b); [subst; lia|]. pose proof (dno_lt a b). pose proof (dno_lt b a). lia.
Qed.
Lemma dno_small : forall n, -365 <= n <= 2 ^ 24 -> small (dno n).
Proof.
  intros n H. pose proof (civil_year n ltac:(lia)) as Y. destruct (civil_good n) as [[V1 V2] _].
  pose proof (month_pos (dy (civil_date n)) (dm (civil_date n))). unfold small, dno, idate.
  change (2 ^ 24) with 16777216 in H. change (2 ^ 31) with 2147483648. Z.to_euclidean_division_equations. lia.
Qed.
Lemma dno_year : forall n, -365 <= n -> Z.quot (dno n) 10000 = dy (civil_date n).
Proof.
  intros n H. pose proof (civil_year n H). destruct (civil_good n) as [V _]. apply idate_parts; [exact V|lia].
Qed.
Lemma get_day : forall now zone s, s <> 0 -> get_idate now zone s = dno (day_no zone s).
Proof.
  intros now zone s H. unfold get_idate, time_check, local_day, dno, day_no. destruct (s =? 0) eqn:E; [lia|].
  unfold idate, civil_date. destruct (civil _) as [[y m] d]. reflexivity.
Qed.
Lemma next_day : forall now zone n, -365 <= n -> (n + 1) * 86400 <> zone -> next_work_day now zone (dno n) 1 = dno (n + 1).
Proof.
  intros now zone n H Z1. unfold next_work_day. destruct (civil_good n) as [V E]. pose proof (civil_year n H).
  unfold dno at 1. rewrite make_idate by (assumption || lia). rewrite E.
  change (to_s 32 (1 * (24 * 3600))) with 86400. replace (n * 86400 - zone + 86400) with ((n + 1) * 86400 - zone) by lia.
  exact (get_num now zone (n + 1) ltac:(lia)).
Qed.

(** * the dates of records *)
Definition key_date (zone : Z) (u : unit_of_time) (r : srec) : Z := dno (day_no zone (secs u (fst r))).

Definition LIM : Z := 1125899906843.
Lemma day_range : forall zone s, -86400 < zone < 86400 -> 0 < s < LIM -> -1 <= day_no zone s <= 2 ^ 24 - 1.
Proof.
  intros zone s H S. unfold day_no, LIM in *. change (2 ^ 24) with 16777216 in *. Z.to_euclidean_division_equations. lia.
Qed.
Lemma next_ok : forall zone s k, -86400 < zone < 86400 -> 0 < s -> day_no zone s <= k -> (k + 1) * 86400 <> zone.
Proof. intros zone s k H S K. unfold day_no in K. Z.to_euclidean_division_equations. lia. Qed.
Lemma secs_range : forall u v, u <> Days -> fits u v -> 0 < secs u v < LIM.
Proof.
  intros u v N F. unfold LIM. destruct u; cbn [fits secs] in *; [| | |congruence];
    change (2 ^ 31) with 2147483648 in *; change (2 ^ 50) with 1125899906842624 in *; Z.to_euclidean_division_equations; lia.
Qed.
Lemma to_u_64 : forall v, 0 <= v < 2 ^ 63 -> to_u 64 v = v.
Proof. intros. apply to_u_small. change (2 ^ 63) with 9223372036854775808 in *. change (2 ^ 64) with 18446744073709551616. lia. Qed.
Lemma to_s_64 : forall v, 0 <= v < 2 ^ 63 -> to_s 64 v = v.
Proof. intros. apply to_s_small; [lia|]. change (64 - 1) with 63. lia. Qed.
Lemma to_s_32 : forall v, small v -> to_s 32 v = v.
Proof. intros v H. unfold small in H. apply to_s_small; [lia|]. change (32 - 1) with 31. lia. Qed.
Lemma small_63 : forall v, small v -> 0 <= v < 2 ^ 63.
Proof. unfold small. change (2 ^ 31) with 2147483648. change (2 ^ 63) with 9223372036854775808. lia. Qed.

Lemma date_ok : forall now zone u v, -86400 < zone < 86400 -> u <> Days -> fits u v ->
  to_date now zone (kind_of u) v = dno (day_no zone (secs u v)) /\ small (dno (day_no zone (secs u v))).
Proof.
  intros now zone u v H N F. pose proof (secs_range u v N F) as S. pose proof (day_range zone _ H S) as R.
  assert (SM : small (dno (day_no zone (secs u v)))) by (apply dno_small; lia).
  split; [|exact SM]. unfold to_date, time_convert.
  assert (B : 0 <= secs u v < 2 ^ 63) by (unfold LIM in S; change (2 ^ 63) with 9223372036854775808; lia).
  destruct u; [| | |congruence]; cbn [kind_of secs] in *;
    repeat match goal with |- context [?a =? ?b] => let x := eval vm_compute in (a =? b) in change (a =? b) with x end; cbn match.
  - rewrite to_s_64, get_day by lia. apply to_u_64, small_63, SM.
  - rewrite to_s_64, get_day by lia. apply to_u_64, small_63, SM.
  - rewrite (to_u_64 (v * 60)), to_s_64, get_day by lia. apply to_u_64, small_63, SM.
Qed.
Lemma curr_ok : forall now zone u v, -86400 < zone < 86400 -> u <> Days -> u <> Milliseconds -> fits u v ->
  curr_date now zone (kind_of u) v = dno (day_no zone (secs u v)).
Proof.
  intros now zone u v H N M F. destruct (date_ok now zone u v H N F) as [E S]. unfold curr_date.
  assert (B : small v) by (unfold small; destruct u; cbn [fits] in F; try congruence; lia).
  rewrite (to_s_32 v B), (to_u_64 v (small_63 v B)), E. now apply to_s_32.
Qed.
Lemma secs_le : forall u a b, a <= b -> secs u a <= secs u b.
Proof. intros u a b H. destruct u; cbn [secs]; Z.to_euclidean_division_equations; lia. Qed.
Lemma day_le : forall zone a b, a <= b -> day_no zone a <= day_no zone b.
Proof. intros. unfold day_no. apply Z.div_le_mono; lia. Qed.
Lemma key_le : forall zone u (a b : srec), fst a <= fst b -> key_date zone u a <= key_date zone u b.
Proof. intros. unfold key_date. apply dno_le, day_le, secs_le. assumption. Qed.

Lemma date_id : forall now zone v, to_date now zone K_DATE v = v.
Proof. reflexivity. Qed.
Lemma curr_id : forall now zone v, small v -> curr_date now zone K_DATE v = v.
Proof. intros. unfold curr_date. rewrite date_id, (to_s_32 v), to_u_64 by auto using small_63. now apply to_s_32. Qed.
Lemma kind_date : forall u, u <> Days -> (kind_of u =? K_DATE) = false.
Proof. intros u H. destruct u; congruence || reflexivity. Qed.
#[local] Opaque dno day_no to_date curr_date get_idate make_time kind_of.
(** cutting by days *)
Lemma map_pair_id : forall A B (l : list (A * B)), map (fun '(d, x) => (d, x)) l = l.
Proof. induction l as [|[a b] l IH]; [reflexivity|]. cbn [map]. now rewrite IH. Qed.
Lemma split_date_ok : forall now zone u r l T, -86400 < zone < 86400 -> u <> Days -> good_batch zone u (r :: l) ->
  nondecr (map fst (r :: l)) -> T < first_time (r :: l) ->
  let L := split_date now zone (kind_of u) r l in
  chain T L /\ keyed (key_date zone u) L /\ concat (map snd L) = r :: l /\ ending T L = last_time (r :: l).
Proof.
  intros now zone u r l T HZ N [GF GO] ND TT. cbn zeta. unfold split_date.
  change (first_time (r :: l)) with (fst r).
  destruct (last_time_in (r :: l) ltac:(discriminate)) as [z [Z1 Z2]]. rewrite <- Z2.
  pose proof GF as GF0. rewrite Forall_forall in GF0.
  destruct (date_ok now zone u (fst r) HZ N (GF0 r (or_introl eq_refl))) as [E1 S1].
  destruct (date_ok now zone u (fst z) HZ N (GF0 z Z1)) as [E2 S2]. rewrite E1, E2, (to_s_32 _ S1), dno_inj.
  destruct (day_no zone (secs u (fst r)) =? day_no zone (secs u (fst z))) eqn:E.
  - rewrite Z2. apply one_ok; [discriminate|exact ND|exact TT|]. apply Forall_forall. intros a A.
    assert (fst r <= fst a) by (change (fst r) with (first_time (r :: l)); now apply nondecr_first).
    assert (fst a <= fst z) by (rewrite Z2; now apply nondecr_last').
    pose proof (key_le zone u r a ltac:(assumption)). pose proof (key_le zone u a z ltac:(assumption)).
    assert (key_date zone u r = key_date zone u z) by (unfold key_date; f_equal; lia). unfold key_date in *. lia.
  - assert (M : u <> Milliseconds).
    { intros ->. specialize (GO eq_refl r z (or_introl eq_refl) Z1). lia. }
    assert (CC : forall a, In a (r :: l) -> curr_date now zone (kind_of u) (fst a) = key_date zone u a).
    { intros a A. apply curr_ok; auto. }
    pose proof (runs_ok Z.eqb (curr_date now zone (kind_of u)) (fun d => d) l (dno (day_no zone (secs u (fst r)))) [r] T) as R.
    cbn zeta in R. rewrite map_pair_id in R. rewrite Z2. change (r :: l) with ([r] ++ l).
    destruct R as [R1 [R2 [R3 R4]]].
    + intros. reflexivity.
    + exact S1.
    + apply Forall_forall. intros a A. rewrite (CC a (or_intror A)). apply date_ok; auto. apply GF0. now right.
    + discriminate.
    + exact ND.
    + exact TT.
    + constructor; [|constructor]. apply CC. now left.
    + split; [exact R1|]. split; [|split; assumption]. unfold keyed in *. apply Forall_forall. intros p P.
      rewrite Forall_forall in R2. specialize (R2 p P). apply Forall_forall. intros a A. rewrite Forall_forall in R2. rewrite <- (R2 a A).
      symmetry. apply CC. refine (eq_ind _ (fun x => In a x) _ _ R3). apply in_concat. exists (snd p). split; [now apply in_map|exact A].
Qed.

(** cutting by years *)
Definition key_year (r : srec) : Z := fst r / 10000.
Lemma quot_small : forall a, small a -> Z.quot a 10000 = a / 10000.
Proof. intros a [A B]. apply Z.quot_div_nonneg; lia. Qed.
Lemma is_year_ok : forall a b, small a -> small b -> is_year a b = (Z.quot a 10000 =? Z.quot b 10000).
Proof. intros a b A B. unfold is_year. now rewrite !to_s_32. Qed.
Lemma split_year_ok : forall now zone (r : srec) (l : list srec) T, Forall (fun r : srec => fits Days (fst r)) (r :: l) ->
  nondecr (map fst (r :: l)) -> T < first_time (r :: l) ->
  let L := split_year now zone K_DATE r l in
  chain T L /\ keyed key_year L /\ concat (map snd L) = r :: l /\ ending T L = last_time (r :: l).
Proof.
  intros now zone r l T GF ND TT. cbn zeta. unfold split_year. rewrite !date_id.
  change (first_time (r :: l)) with (fst r).
  destruct (last_time_in (r :: l) ltac:(discriminate)) as [z [Z1 Z2]]. rewrite <- Z2.
  rewrite Forall_forall in GF.
  assert (SM : forall a, In a (r :: l) -> small (fst a)) by (intros a A; specialize (GF a A); cbn [fits] in GF; unfold small; lia).
  rewrite is_year_ok by (apply SM; auto; now left). rewrite (to_s_32 (fst r)) by (apply SM; now left).
  rewrite !quot_small by (apply SM; auto; now left).
  destruct (fst r / 10000 =? fst z / 10000) eqn:E.
  - rewrite Z2. cbn [map]. rewrite quot_small by (apply SM; now left). apply one_ok; [discriminate|exact ND|exact TT|]. apply Forall_forall. intros a A.
    assert (fst r <= fst a) by (change (fst r) with (first_time (r :: l)); now apply nondecr_first).
    assert (fst a <= fst z) by (rewrite Z2; now apply nondecr_last').
    unfold key_year. assert (fst r / 10000 <= fst a / 10000) by (apply Z.div_le_mono; lia).
    assert (fst a / 10000 <= fst z / 10000) by (apply Z.div_le_mono; lia). lia.
  - pose proof (runs_ok is_year (curr_date now zone K_DATE) (fun d => Z.quot d 10000) l (fst r) [r] T) as R.
    cbn zeta in R. rewrite Z2. change (r :: l) with ([r] ++ l).
    assert (CC : forall a, In a (r :: l) -> Z.quot (curr_date now zone K_DATE (fst a)) 10000 = key_year a).
    { intros a A. rewrite curr_id by auto. apply quot_small; auto. }
    destruct R as [R1 [R2 [R3 R4]]].
    + apply is_year_ok.
    + apply SM; now left.
    + apply Forall_forall. intros a A. rewrite curr_id by (apply SM; now right). apply SM; now right.
    + discriminate.
    + exact ND.
    + exact TT.
    + constructor; [|constructor]. rewrite CC by now left. symmetry. apply quot_small, SM. now left.
    + split; [exact R1|]. split; [|split; assumption]. unfold keyed in *. apply Forall_forall. intros p P.
      rewrite Forall_forall in R2. specialize (R2 p P). apply Forall_forall. intros a A. rewrite Forall_forall in R2. rewrite <- (R2 a A).
      symmetry. apply CC. refine (eq_ind _ (fun x => In a x) _ _ R3). apply in_concat. exists (snd p). split; [now apply in_map|exact A].
Qed.

(** * all batches *)
Lemma in_order_cons : forall b bs, in_order (b :: bs) -> b <> [] /\ nondecr (map fst b) /\ in_order bs /\
  match bs with b' :: _ => last_time b < first_time b' | [] => True end.
Proof.
  intros b bs H. cbn [in_order] in H. destruct H as [A [B [C D]]]. repeat split; try assumption.
  destruct bs as [|[|[t p] c] bs]; [exact I|destruct C|exact C].
Qed.
Definition after (T : Z) (bs : list (list srec)) : Prop := match bs with b :: _ => T < first_time b | [] => True end.
Lemma batches_ok : forall now zone u bs st T, -86400 < zone < 86400 -> u <> Days -> Forall (good_batch zone u) bs ->
  in_order bs -> 0 <= T -> kept T (s_date st) -> after T bs ->
  exists st', write_batches now zone (kind_of u) st bs = Some st' /\ s_year st' = s_year st /\
    forall d, flat (s_date st' d) = flat (s_date st d) ++ filter (fun r => key_date zone u r =? d) (concat bs).
Proof.
  intros now zone u. induction bs as [|b bs IH]; intros st T HZ N G O P K A.
  - exists st. split; [reflexivity|]. split; [reflexivity|]. intros d. cbn. now rewrite app_nil_r.
  - apply in_order_cons in O. destruct O as [NE [ND [O A2]]]. inversion G as [|? ? G1 G2]; subst.
    destruct b as [|r l]; [congruence|]. cbn [after] in A.
    destruct (split_date_ok now zone u r l T HZ N G1 ND A) as [C1 [C2 [C3 C4]]].
    destruct (put_all_ok _ (s_date st) T P K C1) as [P1 [P2 P3]]. rewrite C4 in *.
    cbn [write_batches write]. rewrite (kind_date u N).
    destruct (IH (mkst (s_year st) (put_all (s_date st) (split_date now zone (kind_of u) r l))) (last_time (r :: l))) as [st' [W [Y F]]]; try assumption; try lia.
    exists st'. split; [exact W|]. split; [exact Y|]. intros d. rewrite F. cbn [s_date]. rewrite P1, (keyed_filter _ _ _ C2), C3.
    cbn [concat]. rewrite filter_app, app_assoc. reflexivity.
Qed.
Lemma batches_year_ok : forall now zone (bs : list (list srec)) st T, Forall (Forall (fun r : srec => fits Days (fst r))) bs ->
  in_order bs -> 0 <= T -> kept T (s_year st) -> after T bs ->
  exists st', write_batches now zone K_DATE st bs = Some st' /\ s_date st' = s_date st /\
    forall d, flat (s_year st' d) = flat (s_year st d) ++ filter (fun r => key_year r =? d) (concat bs).
Proof.
  intros now zone. induction bs as [|b bs IH]; intros st T G O P K A.
  - exists st. split; [reflexivity|]. split; [reflexivity|]. intros d. cbn. now rewrite app_nil_r.
  - apply in_order_cons in O. destruct O as [NE [ND [O A2]]]. inversion G as [|? ? G1 G2]; subst.
    destruct b as [|r l]; [congruence|]. cbn [after] in A.
    destruct (split_year_ok now zone r l T G1 ND A) as [C1 [C2 [C3 C4]]].
    destruct (put_all_ok _ (s_year st) T P K C1) as [P1 [P2 P3]]. rewrite C4 in *.
    cbn [write_batches write]. change (K_DATE =? K_DATE) with true. cbn match.
    destruct (IH (mkst (put_all (s_year st) (split_year now zone K_DATE r l)) (s_date st)) (last_time (r :: l))) as [st' [W [Y F]]]; try assumption; try lia.
    exists st'. split; [exact W|]. split; [exact Y|]. intros d. rewrite F. cbn [s_year]. rewrite P1, (keyed_filter _ _ _ C2), C3.
    cbn [concat]. rewrite filter_app, app_assoc. reflexivity.
Qed.

(** * reading *)
Lemma filter_step : forall A (g : A -> Z) l a m, (forall i j x y, nth_error l i = Some x -> nth_error l j = Some y -> (i < j)%nat -> g x <= g y) ->
  a <= m -> filter (fun r => (a <=? g r) && (g r <? m + 1)) l = filter (fun r => (a <=? g r) && (g r <? m)) l ++ filter (fun r => g r =? m) l.
Proof.
  intros A g l a m. induction l as [|x l IH]; intros S L; [reflexivity|]. cbn [filter].
  assert (S' : forall i j x y, nth_error l i = Some x -> nth_error l j = Some y -> (i < j)%nat -> g x <= g y).
  { intros i j u v U V IJ. apply (S (Datatypes.S i) (Datatypes.S j)); auto. lia. }
  specialize (IH S' L). destruct (g x =? m) eqn:E.
  - replace ((a <=? g x) && (g x <? m + 1)) with true by lia. replace ((a <=? g x) && (g x <? m)) with false by lia.
    rewrite IH. rewrite (filter_none _ (fun r => (a <=? g r) && (g r <? m)) l); [reflexivity|].
    intros y Y. apply In_nth_error in Y. destruct Y as [j J]. specialize (S O (Datatypes.S j) x y eq_refl J ltac:(lia)). lia.
  - destruct ((a <=? g x) && (g x <? m + 1)) eqn:F.
    + replace ((a <=? g x) && (g x <? m)) with true by lia. cbn [app]. now rewrite IH.
    + replace ((a <=? g x) && (g x <? m)) with false by lia. exact IH.
Qed.
Fixpoint zrange (n : nat) (a : Z) : list Z := match n with O => [] | S n' => a :: zrange n' (a + 1) end.
Lemma zrange_snoc : forall n a, zrange (S n) a = zrange n a ++ [a + Z.of_nat n].
Proof.
  induction n; intros a; [cbn; f_equal; lia|]. change (zrange (S (S n)) a) with (a :: zrange (S n) (a + 1)). rewrite IHn. cbn [zrange app].
  do 3 f_equal. lia.
Qed.
Lemma filter_range : forall A (g : A -> Z) l n a, (forall i j x y, nth_error l i = Some x -> nth_error l j = Some y -> (i < j)%nat -> g x <= g y) ->
  concat (map (fun d => filter (fun r => g r =? d) l) (zrange n a)) = filter (fun r => (a <=? g r) && (g r <? a + Z.of_nat n)) l.
Proof.
  intros A g l n a S. induction n.
  - cbn. symmetry. apply filter_none. intros; lia.
  - rewrite zrange_snoc, map_app, concat_app, IHn. cbn [map concat]. rewrite app_nil_r.
    rewrite <- filter_step by (auto || lia). apply filter_ext. intros. lia.
Qed.
Lemma day_blocks_ok : forall now zone f n0 n1 fuel, -365 <= n0 -> (forall k, n0 <= k -> (k + 1) * 86400 <> zone) ->
  (Z.to_nat (n1 + 1 - n0) <= fuel)%nat ->
  day_blocks fuel now zone f (dno n0) (dno n1) = Some (concat (map (fun n => f (dno n)) (zrange (Z.to_nat (n1 + 1 - n0)) n0))).
Proof.
  intros now zone f n0 n1 fuel. revert n0. induction fuel as [|fuel IH]; intros n0 L H F.
  - replace (Z.to_nat (n1 + 1 - n0)) with O by lia. cbn [day_blocks zrange map concat]. pose proof (dno_lt n1 n0).
    destruct (dno n1 <? dno n0) eqn:E; [reflexivity|lia].
  - cbn [day_blocks]. destruct (Z_le_gt_dec n0 n1) as [G|G].
    + pose proof (dno_le n0 n1 G). destruct (dno n1 <? dno n0) eqn:E; [lia|].
      rewrite next_day by (auto; apply H; lia). rewrite IH by (intros; try apply H; lia).
      replace (Z.to_nat (n1 + 1 - n0)) with (S (Z.to_nat (n1 + 1 - (n0 + 1)))) by lia. reflexivity.
    + replace (Z.to_nat (n1 + 1 - n0)) with O by lia. pose proof (dno_lt n1 n0). destruct (dno n1 <? dno n0) eqn:E; [reflexivity|lia].
Qed.
Lemma year_blocks_ok : forall f y0 y1 fuel, (Z.to_nat (y1 + 1 - y0) <= fuel)%nat ->
  year_blocks fuel f y0 y1 = Some (concat (map f (zrange (Z.to_nat (y1 + 1 - y0)) y0))).
Proof.
  intros f y0 y1 fuel. revert y0. induction fuel as [|fuel IH]; intros y0 F.
  - replace (Z.to_nat (y1 + 1 - y0)) with O by lia. cbn [year_blocks zrange map concat]. destruct (y1 <? y0) eqn:E; [reflexivity|lia].
  - cbn [year_blocks]. destruct (y1 <? y0) eqn:E.
    + replace (Z.to_nat (y1 + 1 - y0)) with O by lia. reflexivity.
    + rewrite IH by lia. replace (Z.to_nat (y1 + 1 - y0)) with (S (Z.to_nat (y1 + 1 - (y0 + 1)))) by lia. reflexivity.
Qed.
Lemma flat_concat : forall A (f : A -> list block) l, flat (concat (map f l)) = concat (map (fun a => flat (f a)) l).
Proof. induction l as [|a l IH]; [reflexivity|]. cbn [map concat]. now rewrite flat_app, IH. Qed.
Lemma concat_nils : forall A B (l : list A), concat (map (fun _ => @nil B) l) = [].
Proof. induction l; [reflexivity|exact IHl]. Qed.

(** the whole series is in order *)
Lemma order_all : forall bs, in_order bs -> nondecr (map fst (concat bs)).
Proof.
  assert (X : forall bs, in_order bs -> nondecr (map fst (concat bs)) /\ forall T, after T bs -> Forall (fun r => T < fst r) (concat bs)).
  { induction bs as [|b bs IH]; intros O; [split; [exact I|intros; constructor]|].
    apply in_order_cons in O. destruct O as [NE [ND [O A2]]]. destruct (IH O) as [I1 I2].
    assert (A3 : after (last_time b) bs) by (destruct bs; [exact I|exact A2]). specialize (I2 _ A3). rewrite Forall_forall in I2.
    cbn [concat]. rewrite map_app. split.
    - apply nondecr_app. split; [exact ND|]. split; [exact I1|]. intros x y X Y. apply in_map_iff in X. destruct X as [r [<- X]].
      apply in_map_iff in Y. destruct Y as [r' [<- Y]]. specialize (I2 r' Y). pose proof (nondecr_last' b r ND X). lia.
    - intros T A. cbn [after] in A. apply Forall_app. split; apply Forall_forall; intros r R.
      + pose proof (nondecr_first b r ND R). lia.
      + specialize (I2 r R). pose proof (first_last b NE ND). lia. }
  intros bs O. apply X, O.
Qed.
Lemma nondecr_nth : forall (l : list srec) i j x y, nondecr (map fst l) -> nth_error l i = Some x -> nth_error l j = Some y -> (i < j)%nat -> fst x <= fst y.
Proof.
  induction l as [|a l IH]; intros i j x y N X Y L; [destruct i; discriminate|]. cbn [map] in N. apply nondecr_cons in N. destruct N as [F N].
  destruct j as [|j]; [lia|]. cbn [nth_error] in Y. destruct i as [|i].
  - injection X as <-. apply nth_error_In in Y. rewrite Forall_forall in F. apply F, in_map, Y.
  - eapply IH; eauto. lia.
Qed.
