(** Lemmas for the keys of maps and the named list. *)
From Verif Require Import Base S_server M_server S_dict M_dict S_map M_map L_dict.
From Coq Require Import Permutation ZifyBool ZifyNat.

(** * keys *)
Lemma casecmp_lower a : forall b, casecmp a b = true <-> map lower a = map lower b.
Proof.
  induction a as [|x a IH]; intros [|y b]; cbn; try (split; congruence).
  rewrite andb_true_iff, IH, Z.eqb_eq. split; [intros (-> & ->); trivial|intros E; now inversion E].
Qed.
Lemma siptlw_lower c : siptlw c = lower c. Proof. reflexivity. Qed.
Lemma sipwords_ci n : forall s a b, map lower a = map lower b ->
  fst (sipwords n s a) = fst (sipwords n s b) /\
  map lower (snd (sipwords n s a)) = map lower (snd (sipwords n s b)).
Proof.
  induction n as [|n IH]; intros [[[v0 v1] v2] v3] a b E; cbn [sipwords]; [now split|].
  change (map siptlw (firstn 8 a)) with (map lower (firstn 8 a)).
  change (map siptlw (firstn 8 b)) with (map lower (firstn 8 b)).
  rewrite <- !firstn_map, E.
  destruct (sipround (v0, v1, v2, Z.lxor v3 (le_val (firstn 8 (map lower b))))) as [[[w0 w1] w2] w3].
  apply IH. rewrite <- !skipn_map. now rewrite E.
Qed.
Lemma str_hash_ci k0 k1 a b : str_compare a b = true -> str_hash k0 k1 a = str_hash k0 k1 b.
Proof.
  intros H. apply casecmp_lower in H. unfold str_hash, siphash_nocase.
  assert (L : length a = length b) by (rewrite <- (map_length lower a), H; apply map_length).
  rewrite L. set (s0 := (Z.lxor 0x736f6d6570736575 k0, Z.lxor 0x646f72616e646f6d k1,
     Z.lxor 0x6c7967656e657261 k0, Z.lxor 0x7465646279746573 k1)).
  destruct (sipwords_ci (length b / 8) s0 a b H) as (E1 & E2).
  destruct (sipwords (length b / 8) s0 a) as (s1, r1), (sipwords (length b / 8) s0 b) as (s2, r2).
  cbn [fst snd] in E1, E2. change (map siptlw r1) with (map lower r1). change (map siptlw r2) with (map lower r2).
  now rewrite E1, E2.
Qed.
Lemma to_u_nonneg w z : 0 <= w -> 0 <= to_u w z.
Proof. intros. unfold to_u. apply Z.mod_pos_bound. apply Z.pow_pos_nonneg; lia. Qed.
Lemma str_key_ok k0 k1 : key_ok str_compare (str_hash k0 k1).
Proof.
  split; [|split; [|split; [|split]]].
  - intros a. now apply casecmp_lower.
  - intros a b. unfold str_compare. apply Bool.eq_iff_eq_true. rewrite !casecmp_lower. split; congruence.
  - unfold str_compare. intros a b c. rewrite !casecmp_lower. congruence.
  - apply str_hash_ci.
  - intros a. unfold str_hash, siphash_nocase. destruct (sipwords _ _ _) as (s, r). destruct s as [[[v0 v1] v2] v3].
    destruct (sipround _) as [[[w0 w1] w2] w3]. destruct (sipround (sipround _)) as [[[x0 x1] x2] x3].
    apply to_u_nonneg. lia.
Qed.
Lemma int_key_ok : key_ok int_compare int_hash.
Proof.
  unfold int_compare, int_hash. split; [|split; [|split; [|split]]]; intros.
  - apply Z.eqb_refl.
  - apply Z.eqb_sym.
  - lia.
  - apply Z.eqb_eq in H. now subst.
  - apply to_u_nonneg. lia.
Qed.
Lemma same_name_cmp a b : same_name a b = str_compare a b.
Proof.
  unfold same_name, str_compare. destruct (list_eq_dec Z.eq_dec (map lower a) (map lower b)) as [E|E].
  - symmetry. now apply casecmp_lower.
  - destruct (casecmp a b) eqn:C; trivial. now apply casecmp_lower in C.
Qed.

(** * the list of pointers *)
Lemma nth_upd l i j (v d : Z) : nth j (upd l i v) d = if ((i =? j) && (i <? length l))%nat then v else nth j l d.
Proof.
  destruct (Nat.eqb_spec i j) as [->|N]; cbn [andb].
  - destruct (Nat.ltb_spec j (length l)); [now apply nth_upd_same|].
    rewrite !nth_overflow; trivial; rewrite ?upd_length; lia.
  - apply nth_upd_other. auto.
Qed.

Definition prel (p : plist) (vs : list Z) : Prop :=
  pcnt p = Z.of_nat (length vs) /\ (length vs <= length (pbuf p))%nat /\ firstn (length vs) (pbuf p) = vs.

Lemma prel_nth p vs i : prel p vs -> (i < length vs)%nat -> nth i (pbuf p) 0 = nth i vs 0.
Proof.
  intros (_ & L & F) H. rewrite <- (firstn_skipn (length vs) (pbuf p)), F.
  now rewrite app_nth1.
Qed.
Lemma pget_spec p vs i : prel p vs -> pget p i = if (0 <=? i) && (i <? Z.of_nat (length vs)) then nth (Z.to_nat i) vs 0 else 0.
Proof.
  intros R. unfold pget. pose proof R as (-> & _). destruct (_ && _) eqn:C; [|trivial].
  apply prel_nth; trivial. lia.
Qed.
Lemma firstn_len_app (a b : list Z) : firstn (length a) (a ++ b) = a.
Proof. induction a; cbn; [reflexivity|]. now rewrite IHa. Qed.
Lemma firstn_upd_app (b : list Z) n v vs : (n < length b)%nat -> firstn n b = vs -> length vs = n ->
  firstn (S n) (upd b n v) = vs ++ [v].
Proof.
  intros L F E. rewrite upd_split by trivial. rewrite F.
  replace (vs ++ v :: skipn (S n) b) with ((vs ++ [v]) ++ skipn (S n) b) by now rewrite <- app_assoc.
  replace (S n) with (length (vs ++ [v])) by (rewrite app_length; cbn; lia).
  apply firstn_len_app.
Qed.
Lemma ppush_spec stale p vs v : prel p vs -> exists p', ppush stale p v = Some p' /\ prel p' (vs ++ [v]).
Proof.
  intros (C & L & F). unfold ppush.
  assert (G : prel (pgrow stale p (pcnt p + 1)) vs /\ (length vs < length (pbuf (pgrow stale p (pcnt p + 1))))%nat).
  { unfold pgrow. destruct (Z.ltb_spec (pcnt p + 1) (Z.of_nat (length (pbuf p)))).
    - split; [split; [trivial|split; trivial]|]. lia.
    - assert (X : (length vs < length (pbuf p ++ map stale (seq (length (pbuf p)) (Z.to_nat (if (pcnt p + 1 <? 256)%Z then 256%Z else (pcnt p + 1 + 1024)%Z) - length (pbuf p)))))%nat).
      { rewrite app_length, map_length, seq_length. destruct (Z.ltb_spec (pcnt p + 1) 256); lia. }
      split; [|exact X]. split; [exact C|]. split; [cbn [pbuf]; lia|]. cbn [pbuf].
      rewrite firstn_app. replace (length vs - length (pbuf p))%nat with O by lia. cbn. now rewrite app_nil_r. }
  destruct G as ((C1 & L1 & F1) & X). destruct (Z.leb_spec (Z.of_nat (length (pbuf (pgrow stale p (pcnt p + 1))))) (pcnt (pgrow stale p (pcnt p + 1)))); [lia|].
  eexists. split; [reflexivity|]. rewrite C1, Nat2Z.id. split; [|split].
  - cbn [pcnt]. rewrite app_length. cbn. lia.
  - cbn [pbuf]. rewrite upd_length, app_length. cbn. lia.
  - cbn [pbuf]. rewrite app_length. cbn [length]. rewrite Nat.add_1_r. now apply firstn_upd_app.
Qed.
Lemma upd_app_l (a b : list Z) i v : (i < length a)%nat -> upd (a ++ b) i v = upd a i v ++ b.
Proof. revert i. induction a as [|x a IH]; intros [|i] H; cbn in *; try lia; trivial. rewrite IH by lia. trivial. Qed.
Lemma pupdate_spec p vs i v : prel p vs -> (i < length vs)%nat ->
  exists p', pupdate p (Z.of_nat i) v = (p', nonnull [nth i vs 0]) /\ prel p' (upd vs i v).
Proof.
  intros R H. pose proof R as (C & L & F). unfold pupdate. rewrite C.
  destruct ((0 <=? Z.of_nat i) && (Z.of_nat i <? Z.of_nat (length vs))) eqn:B; [|lia].
  rewrite Nat2Z.id, (prel_nth p vs i R H). eexists. split.
  - f_equal. unfold nonnull. cbn. now destruct (nth i vs 0 =? 0).
  - split; [|split]; cbn [pcnt pbuf]; rewrite ?upd_length; trivial.
    rewrite <- (firstn_skipn (length vs) (pbuf p)), F. rewrite upd_app_l by trivial.
    rewrite <- (upd_length vs i v) at 1. apply firstn_len_app.
Qed.
Lemma pclear_spec p vs : prel p vs -> exists p', pclear p = (p', nonnull vs) /\ prel p' [].
Proof.
  intros (C & L & F). unfold pclear. rewrite C, Nat2Z.id, F. eexists. split; [reflexivity|].
  split; [reflexivity|]. split; [cbn; lia|]. reflexivity.
Qed.

(** * the named list *)
Lemma position_lt l k i : position l k = Some i -> (i < length l)%nat.
Proof.
  revert i. induction l as [|[a v] l IH]; intros i H; cbn in *; [discriminate|].
  destruct (same_name k a); [inversion H; lia|]. destruct (position l k) as [j|]; [|discriminate].
  inversion H; subst. specialize (IH j eq_refl). lia.
Qed.
Lemma position_put l i v k : position (put_at l i v) k = position l k.
Proof.
  revert i. induction l as [|[a w] l IH]; intros [|i]; cbn; trivial. destruct (same_name k a); trivial. now rewrite IH.
Qed.
Lemma put_at_snd l i v : map snd (put_at l i v) = upd (map snd l) i v.
Proof. revert i. induction l as [|[a w] l IH]; intros [|i]; cbn; trivial. now rewrite IH. Qed.
Lemma put_at_length l i v : length (put_at l i v) = length l.
Proof. rewrite <- (map_length snd), put_at_snd, upd_length. apply map_length. Qed.
Lemma position_app l k v q : position (l ++ [(k, v)]) q =
  match position l q with Some i => Some i | None => if same_name q k then Some (length l) else None end.
Proof.
  induction l as [|[a w] l IH]; cbn; [destruct (same_name q k); reflexivity|].
  destruct (same_name q a); trivial. rewrite IH. destruct (position l q); trivial.
  destruct (same_name q k); trivial.
Qed.
Lemma mspec_length l o : (length (fst (fst (mspec l o))) <= S (length l))%nat.
Proof.
  destruct o as [k v|k|k|i| |]; cbn [mspec]; try (cbn; lia).
  destruct (position l k); cbn [fst]; [rewrite put_at_length; lia|]. rewrite app_length. cbn. lia.
Qed.

Section NamedList.
Variables (k0 k1 : Z) (stale : nat -> Z).
Notation SK := (str_key_ok k0 k1).
Notation dinv := (dinv str_compare (str_hash k0 k1)).

Definition mrel (s : mlist) (l : list (list Z * Z)) : Prop :=
  dinv (mmap s) /\ (forall k, lookup str_compare (dents (mmap s)) k = option_map Z.of_nat (position l k)) /\
  length (dents (mmap s)) = length l /\ prel (mlst s) (map snd l).

Lemma same_name_trans a b c : same_name a b = true -> same_name b c = true -> same_name a c = true.
Proof. rewrite !same_name_cmp. apply SK. Qed.
Lemma same_name_sym a b : same_name a b = same_name b a.
Proof. rewrite !same_name_cmp. apply SK. Qed.
Lemma position_ci l k q : same_name q k = true -> position l q = position l k.
Proof.
  intros H. induction l as [|[a w] l IH]; cbn; trivial.
  assert (E : same_name q a = same_name k a).
  { apply Bool.eq_iff_eq_true. split; intros X.
    - apply (same_name_trans k q a); trivial. now rewrite same_name_sym.
    - now apply (same_name_trans q k a). }
  rewrite E. destruct (same_name k a); trivial. now rewrite IH.
Qed.

Lemma map_int_get_spec s l k : mrel s l -> Z.of_nat (length l) < 2 ^ 27 ->
  exists m, map_int_get k0 k1 (mmap s) k = Some (m, match position l k with Some i => Z.of_nat i | None => -1 end) /\
    mrel (mkml m (mlst s)) l.
Proof.
  intros (D & LK & LN & P) B. unfold map_int_get.
  destruct (dfind_spec str_compare (str_hash k0 k1) SK (mmap s) k D) as (m & -> & D' & PM & _).
  exists m. split.
  - rewrite LK. f_equal. f_equal. destruct (position l k) as [i|] eqn:E; [|reflexivity]. cbn [option_map].
    apply position_lt in E. rewrite to_s_small; [trivial|lia|]. change (2 ^ (32 - 1)) with 2147483648. change (2 ^ 27) with 134217728 in B. lia.
  - split; [trivial|]. cbn [mmap mlst]. split; [|split; [|trivial]].
    + intros q. rewrite <- LK. apply (lookup_perm str_compare (str_hash k0 k1) SK); [trivial|apply D'].
    + rewrite <- LN. now apply Permutation_length.
Qed.

Lemma mstep_spec s l o : mrel s l -> Z.of_nat (length l) < 2 ^ 27 ->
  exists s', mstep k0 k1 stale s o = Some (s', snd (fst (mspec l o)), snd (mspec l o)) /\ mrel s' (fst (fst (mspec l o))).
Proof.
  intros R B. pose proof R as (D & LK & LN & P). assert (PL : pcnt (mlst s) = Z.of_nat (length l)).
  { destruct P as (-> & _). now rewrite map_length. }
  destruct o as [k v|k|k|i| |]; cbn [mstep mspec].
  - destruct (map_int_get_spec s l k R B) as (m & -> & R1).
    destruct (position l k) as [i|] eqn:E.
    + destruct (Z.leb_spec 0 (Z.of_nat i)); [|lia].
      destruct (pupdate_spec (mlst s) (map snd l) i v P ltac:(rewrite map_length; eapply position_lt; eauto)) as (p & -> & P').
      eexists. split; [reflexivity|]. cbn [fst snd]. destruct R1 as (D1 & LK1 & LN1 & _).
      split; [trivial|]. split; [intros q; cbn [mmap]; rewrite position_put; apply LK1|].
      split; [now rewrite put_at_length|]. cbn [mlst]. now rewrite put_at_snd.
    + change (0 <=? -1) with false. cbn iota. destruct R1 as (D1 & LK1 & LN1 & _). cbn [mmap mlst] in *.
      destruct (dreplace_spec str_compare (str_hash k0 k1) SK m k (pcnt (mlst s)) D1) as (m2 & -> & D2 & _ & P2).
      { rewrite LN1. change (2 ^ 27) with 134217728 in B. change (2 ^ 60) with 1152921504606846976. lia. }
      assert (MK : mem_key str_compare (dents m) k = false).
      { apply mem_key_false. rewrite LK1, E. reflexivity. }
      rewrite MK in P2. destruct (ppush_spec stale (mlst s) (map snd l) v P) as (p & -> & P').
      eexists. cbn [fst snd]. split.
      { f_equal. f_equal. f_equal. destruct P' as (-> & _). rewrite app_length, map_length. cbn. lia. }
      split; [trivial|]. cbn [mmap mlst]. split; [|split].
      * intros q. rewrite (lookup_perm str_compare (str_hash k0 k1) SK _ _ q P2) by apply D2.
        cbn [lookup]. rewrite position_app, LK1, <- same_name_cmp.
        destruct (same_name q k) eqn:SN.
        -- rewrite (position_ci l k q SN), E. cbn. now rewrite PL.
        -- now destruct (position l q).
      * apply Permutation_length in P2. rewrite P2. cbn [length]. rewrite LN1, app_length. cbn. lia.
      * rewrite map_app. exact P'.
  - destruct (map_int_get_spec s l k R B) as (m & -> & R1). eexists. cbn [fst snd]. split; [|exact R1].
    f_equal. f_equal. f_equal. rewrite PL. destruct (position l k) as [i|] eqn:E.
    + apply position_lt in E. destruct (_ && _) eqn:C; [|lia]. rewrite (pget_spec _ _ _ P), map_length, C.
      rewrite Nat2Z.id. reflexivity.
    + reflexivity.
  - destruct (map_int_get_spec s l k R B) as (m & -> & R1). eexists. cbn [fst snd]. split; [reflexivity|exact R1].
  - exists s. cbn [fst snd]. split; [|trivial]. rewrite (pget_spec _ _ _ P), map_length. reflexivity.
  - exists s. cbn [fst snd]. split; [|trivial]. now rewrite PL.
  - destruct (pclear_spec _ _ P) as (p & -> & P'). eexists. cbn [fst snd]. split; [reflexivity|].
    destruct (dinv_create (V:=Z) str_compare (str_hash k0 k1)) as (A1 & A2 & A3 & A4).
    split; [split; [trivial|]; split; [trivial|]; split; [trivial|]; now left|].
    split; [intros q; reflexivity|]. split; [reflexivity|exact P'].
Qed.

Lemma mrun_spec os : forall s l, mrel s l -> Z.of_nat (length l) + Z.of_nat (length os) < 2 ^ 27 ->
  exists s', mrun k0 k1 stale s os = Some (s', snd (fst (mspec_run l os)), snd (mspec_run l os)) /\
    mrel s' (fst (fst (mspec_run l os))).
Proof.
  induction os as [|o os IH]; intros s l R B; cbn [mrun mspec_run].
  - exists s. now split.
  - cbn [length] in B. destruct (mstep_spec s l o R ltac:(lia)) as (s1 & -> & R1).
    pose proof (mspec_length l o) as L. destruct (mspec l o) as ((l1, x), r). cbn [fst snd] in *.
    destruct (IH s1 l1 R1 ltac:(lia)) as (s2 & -> & R2). exists s2.
    destruct (mspec_run l1 os) as ((l2, xs), rs). cbn [fst snd] in *. now split.
Qed.
Lemma mrel0 : mrel mlist0 [].
Proof.
  split; [apply dinv_create|]. split; [reflexivity|]. split; [reflexivity|].
  split; [reflexivity|]. split; [cbn; lia|reflexivity].
Qed.
End NamedList.

(** * values released: when the values handed over differ, none is released twice or while held *)
Lemma nonnull_in v vs : In v (nonnull vs) -> In v vs.
Proof. unfold nonnull. rewrite filter_In. tauto. Qed.

Definition held (l : list (list Z * Z)) : list Z := nonnull (map snd l).
Lemma held_put l i v : (i < length l)%nat -> Permutation (nonnull [v] ++ held l) (held (put_at l i v) ++ nonnull [value_at l i]).
Proof.
  unfold held, value_at. revert i. induction l as [|[a w] l IH]; intros [|i] H; cbn [length] in H; try lia.
  - cbn [put_at map snd nth]. unfold nonnull. cbn [filter].
    destruct (negb (v =? 0)), (negb (w =? 0)); cbn [app]; rewrite ?app_nil_r; try reflexivity.
    + constructor. apply Permutation_cons_append.
    + apply Permutation_cons_append.
  - cbn [put_at map snd nth]. specialize (IH i ltac:(lia)). unfold nonnull in *. cbn [filter] in *.
    destruct (negb (w =? 0)); [|exact IH]. cbn [app]. rewrite <- IH. symmetry. apply Permutation_middle.
Qed.
Lemma mspec_conserves l o : Permutation (nonnull (given [o]) ++ held l) (held (fst (fst (mspec l o))) ++ snd (mspec l o)).
Proof.
  destruct o as [k v|k|k|i| |]; cbn [mspec given fst snd]; try (cbn; rewrite app_nil_r; reflexivity).
  - destruct (position l k) as [i|] eqn:E; cbn [fst snd].
    + apply held_put. eapply position_lt; eauto.
    + unfold held. rewrite map_app. unfold nonnull. rewrite filter_app, app_nil_r. apply Permutation_app_comm.
  - cbn. reflexivity.
Qed.
Lemma mrun_conserves os : forall l, Permutation (nonnull (given os) ++ held l)
  (held (fst (fst (mspec_run l os))) ++ snd (mspec_run l os)).
Proof.
  induction os as [|o os IH]; intros l; cbn [mspec_run given fst snd].
  - cbn. now rewrite app_nil_r.
  - pose proof (mspec_conserves l o) as C. destruct (mspec l o) as ((l1, x), r). cbn [fst snd] in C.
    specialize (IH l1). destruct (mspec_run l1 os) as ((l2, xs), rs). cbn [fst snd] in *.
    assert (G : nonnull (given (o :: os)) = nonnull (given [o]) ++ nonnull (given os)).
    { unfold nonnull. rewrite <- filter_app. f_equal. destruct o; reflexivity. }
    cbn [given] in G. rewrite G.
    transitivity (nonnull (given os) ++ nonnull (given [o]) ++ held l).
    { rewrite !app_assoc. apply Permutation_app_tail. apply Permutation_app_comm. }
    rewrite C. rewrite app_assoc, IH. rewrite <- !app_assoc. apply Permutation_app_head. apply Permutation_app_comm.
Qed.
