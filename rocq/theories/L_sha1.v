(** Lemmas for C59 to C61. *)
From Coq Require Import ZifyBool ZifyNat.
From Verif Require Import Base S_sha1 M_sha1.
Local Arguments Z.pow : simpl never.
Local Arguments Z.modulo : simpl never.
Local Arguments Z.div : simpl never.
Local Arguments Z.mul : simpl never.
Local Arguments Z.add : simpl never.
Local Arguments Nat.div : simpl never.
Local Arguments Nat.modulo : simpl never.

Definition word (x : Z) : Prop := 0 <= x < W32.

(** ** Bits *)
Lemma lor_add : forall a b n, 0 <= n -> 0 <= b < 2 ^ n -> (2 ^ n | a) -> Z.lor a b = a + b.
Proof.
  intros a b n N B [k ->]. assert (L : Z.land (k * 2 ^ n) b = 0).
  { apply Z.bits_inj'. intros i I. rewrite Z.land_spec, Z.bits_0. destruct (Z_lt_ge_dec i n) as [C|C].
    - rewrite Z.mul_pow2_bits_low by lia. reflexivity.
    - destruct (Z.eq_dec b 0) as [->|NZ]; [rewrite Z.bits_0; apply andb_false_r|].
      rewrite (Z.bits_above_log2 b i); [apply andb_false_r|lia|]. apply Z.lt_le_trans with n; [apply Z.log2_lt_pow2; lia|lia]. }
  rewrite <- Z.lxor_lor by exact L. symmetry. apply Z.add_nocarry_lxor. exact L.
Qed.
Lemma rol_rotl : forall x n, word x -> 0 < n < 32 -> rol x n = rotl n x.
Proof.
  intros x n X N. unfold rol, rotl, u32, to_u, W32, word in *. rewrite Z.shiftl_mul_pow2, Z.shiftr_div_pow2 by lia.
  assert (P : 2 ^ 32 = 2 ^ (32 - n) * 2 ^ n) by (rewrite <- Z.pow_add_r by lia; f_equal; lia).
  assert (P1 : 0 < 2 ^ n) by (apply Z.pow_pos_nonneg; lia). assert (P2 : 0 < 2 ^ (32 - n)) by (apply Z.pow_pos_nonneg; lia).
  apply (lor_add _ _ n); [lia| |].
  - split; [apply Z.div_pos; lia|]. apply Z.div_lt_upper_bound; [lia|]. change (2 ^ 32) with W32 in *. unfold W32 in *. lia.
  - exists (x mod 2 ^ (32 - n)). rewrite P. rewrite Z.mul_mod_distr_r by lia. reflexivity.
Qed.
Lemma rotl_word : forall x n, word x -> 0 < n < 32 -> word (rotl n x).
Proof.
  intros x n X N. unfold rotl, W32, word in *. unfold W32 in *.
  assert (P : 2 ^ 32 = 2 ^ (32 - n) * 2 ^ n) by (rewrite <- Z.pow_add_r by lia; f_equal; lia).
  assert (P1 : 0 < 2 ^ n) by (apply Z.pow_pos_nonneg; lia). assert (P2 : 0 < 2 ^ (32 - n)) by (apply Z.pow_pos_nonneg; lia).
  rewrite P in *. rewrite Z.mul_mod_distr_r by lia. pose proof (Z.mod_pos_bound x (2 ^ (32 - n)) P2).
  assert (0 <= x / 2 ^ (32 - n) < 2 ^ n) by (split; [apply Z.div_pos; lia|apply Z.div_lt_upper_bound; lia]). nia.
Qed.
Lemma bits_of_word : forall x i, word x -> 32 <= i -> Z.testbit x i = false.
Proof.
  intros x i [X1 X2] I. destruct (Z.eq_dec x 0) as [->|N]; [apply Z.bits_0|]. apply Z.bits_above_log2; [exact X1|].
  apply Z.lt_le_trans with 32; [apply Z.log2_lt_pow2; unfold W32 in X2; lia|lia].
Qed.
Lemma word_of_bits : forall x, 0 <= x -> (forall i, 32 <= i -> Z.testbit x i = false) -> word x.
Proof.
  intros x X B. split; [exact X|]. destruct (Z.eq_dec x 0) as [->|N]; [reflexivity|]. unfold W32. apply Z.log2_lt_pow2; [lia|].
  destruct (Z_lt_ge_dec (Z.log2 x) 32) as [L|L]; [exact L|]. specialize (B (Z.log2 x) ltac:(lia)). rewrite Z.bit_log2 in B by lia. discriminate B.
Qed.
Lemma lxor_word : forall x y, word x -> word y -> word (Z.lxor x y).
Proof.
  intros x y X Y. apply word_of_bits; [apply Z.lxor_nonneg; unfold word in *; lia|]. intros i I.
  rewrite Z.lxor_spec, (bits_of_word x), (bits_of_word y) by assumption. reflexivity.
Qed.
Lemma not_word : forall x, word x -> u32 (Z.lnot x) = W32 - 1 - x.
Proof.
  intros x X. unfold u32, to_u, Z.lnot. change (2 ^ 32) with W32. rewrite <- (Z.mod_add _ 1) by (unfold W32; lia).
  unfold word in X. rewrite Z.mod_small; lia.
Qed.
Lemma not_bits : forall x i, word x -> 0 <= i < 32 -> Z.testbit (W32 - 1 - x) i = negb (Z.testbit x i).
Proof.
  intros x i X I. rewrite <- not_word by exact X. unfold u32, to_u. rewrite Z.mod_pow2_bits_low by lia. apply Z.lnot_spec. lia.
Qed.
Lemma f1_Ch : forall b c d, word b -> word c -> word d -> f1 b c d = Ch b c d.
Proof.
  intros b c d B C D. unfold f1, Ch. rewrite not_word by exact B. symmetry. apply Z.lxor_lor. apply Z.bits_inj'. intros i I.
  rewrite !Z.land_spec, Z.bits_0. destruct (Z_lt_ge_dec i 32) as [L|L].
  - rewrite not_bits by (assumption || lia). destruct (Z.testbit b i), (Z.testbit c i), (Z.testbit d i); reflexivity.
  - rewrite (bits_of_word b) by (assumption || lia). reflexivity.
Qed.
Lemma f2_Parity : forall b c d, f2 b c d = Parity b c d.
Proof. intros. unfold f2, Parity. apply Z.lxor_assoc. Qed.
Lemma f3_Maj : forall b c d, f3 b c d = Maj b c d.
Proof.
  intros b c d. unfold f3, Maj. apply Z.bits_inj'. intros i I. rewrite ?Z.lor_spec, ?Z.lxor_spec, ?Z.land_spec.
  destruct (Z.testbit b i), (Z.testbit c i), (Z.testbit d i); reflexivity.
Qed.

(** ** The array *)
Lemma upd_length : forall A k (x : A) l, length (upd k x l) = length l.
Proof. intros A k x l. revert k. induction l as [|y l IH]; intros [|k]; cbn; auto. Qed.
Lemma upd_same : forall A k (x d : A) l, (k < length l)%nat -> nth k (upd k x l) d = x.
Proof. intros A k x d l. revert k. induction l as [|y l IH]; intros [|k] L; cbn in *; try lia; [reflexivity|apply IH; lia]. Qed.
Lemma upd_other : forall A k i (x d : A) l, i <> k -> nth i (upd k x l) d = nth i l d.
Proof. intros A k i x d l. revert k i. induction l as [|y l IH]; intros [|k] [|i] N; cbn; auto; try lia. Qed.

(** ** The schedule *)
Lemma schedule_length : forall k w, length (schedule k w) = (length w + k)%nat.
Proof. induction k as [|k IH]; intros w; cbn [schedule]; [lia|]. rewrite IH, app_length. cbn [length]. lia. Qed.
Lemma schedule_prefix : forall k w i, (i < length w)%nat -> nth i (schedule k w) 0 = nth i w 0.
Proof.
  induction k as [|k IH]; intros w i L; cbn [schedule]; [reflexivity|]. rewrite IH by (rewrite app_length; cbn [length]; lia). apply app_nth1. exact L.
Qed.
Lemma schedule_next : forall k w t, (16 <= length w)%nat -> (length w <= t < length w + k)%nat ->
  let W := schedule k w in
  nth t W 0 = rotl 1 (Z.lxor (nth (t - 3) W 0) (Z.lxor (nth (t - 8) W 0) (Z.lxor (nth (t - 14) W 0) (nth (t - 16) W 0)))).
Proof.
  induction k as [|k IH]; intros w t L T W; [lia|]. unfold W. cbn [schedule].
  destruct (Nat.eq_dec t (length w)) as [->|N].
  - rewrite !schedule_prefix by (rewrite app_length; cbn [length]; lia). rewrite app_nth2 by lia. rewrite Nat.sub_diag. cbn [nth].
    rewrite !app_nth1 by lia. reflexivity.
  - apply IH; rewrite app_length; cbn [length]; lia.
Qed.
Lemma schedule_word : forall k w, (16 <= length w)%nat -> Forall word w -> Forall word (schedule k w).
Proof.
  induction k as [|k IH]; intros w L F; cbn [schedule]; [exact F|]. apply IH; [rewrite app_length; cbn [length]; lia|].
  apply Forall_app. split; [exact F|]. constructor; [|constructor].
  assert (N : forall i, (i < length w)%nat -> word (nth i w 0)) by (intros i I; apply (proj1 (Forall_forall word w) F); apply nth_In; exact I).
  apply rotl_word; [|lia]. repeat apply lxor_word; apply N; lia.
Qed.

(** ** Rounds *)
Definition to_st (l : loc) : state := mkst (l_a l) (l_b l) (l_c l) (l_d l) (l_e l).
Definition loc_ok (l : loc) : Prop := word (l_a l) /\ word (l_b l) /\ word (l_c l) /\ word (l_d l) /\ word (l_e l).
Lemma u32_word : forall x, word (u32 x).
Proof. intros x. unfold u32, to_u, word, W32. apply Z.mod_pos_bound. reflexivity. Qed.
Lemma sum5 : forall n x y z k w, (x + y + z + k + w) mod n = (x + (y + (z + (k + w) mod n) mod n) mod n) mod n.
Proof.
  intros n x y z k w. rewrite (Zplus_mod_idemp_r (k + w) z n), (Zplus_mod_idemp_r (z + (k + w)) y n), (Zplus_mod_idemp_r (y + (z + (k + w))) x n).
  f_equal. lia.
Qed.
Lemma macro_ok : forall f v wr l, loc_ok l -> loc_ok (sha1macro f v wr l).
Proof.
  intros f v wr l (A & B & C & D & E). unfold sha1macro, loc_ok. cbn. rewrite (rol_rotl (l_b l)) by (assumption || lia).
  split; [apply u32_word|]. split; [exact A|]. split; [apply rotl_word; (assumption || lia)|]. split; assumption.
Qed.
Lemma macro_round : forall f v t w l, loc_ok l -> (forall b c d, word b -> word c -> word d -> f b c d = f_t t b c d) -> v = K_t t ->
  to_st (sha1macro f v (nth t w 0) l) = round w (to_st l) t.
Proof.
  intros f v t w l (A & B & C & D & E) F ->. unfold sha1macro, to_st, round. cbn [l_a l_b l_c l_d l_e s_a s_b s_c s_d s_e].
  rewrite !rol_rotl by (assumption || lia). rewrite F by assumption. f_equal. unfold u32, to_u, add32. change (2 ^ 32) with W32.
  apply sum5.
Qed.
Lemma loop0_spec : forall W n r w l, loc_ok l -> (r + n <= 20)%nat -> (forall i, (i < r + n)%nat -> at_ w i = nth i W 0) ->
  loc_ok (loop0 n r w l) /\ to_st (loop0 n r w l) = fold_left (round W) (seq r n) (to_st l).
Proof.
  intros W. induction n as [|n IH]; intros r w l L R H; cbn [loop0 seq fold_left]; [auto|].
  assert (M : to_st (sha1macro f1 1518500249 (at_ w r) l) = round W (to_st l) r).
  { rewrite H by lia. apply macro_round; [exact L| |].
    - intros. unfold f_t. replace (r <? 20)%nat with true by lia. apply f1_Ch; assumption.
    - unfold K_t. replace (r <? 20)%nat with true by lia. reflexivity. }
  rewrite <- M. apply IH; [apply macro_ok; exact L|lia|intros i I; apply H; lia].
Qed.
Section Loops.
Variable W : list Z.
Hypothesis WL : length W = 80%nat.
Hypothesis WW : Forall word W.
Hypothesis WN : forall t, (16 <= t < 80)%nat ->
  nth t W 0 = rotl 1 (Z.lxor (nth (t - 3) W 0) (Z.lxor (nth (t - 8) W 0) (Z.lxor (nth (t - 14) W 0) (nth (t - 16) W 0)))).
Lemma W_word : forall i, (i < 80)%nat -> word (nth i W 0).
Proof. intros i I. apply (proj1 (Forall_forall word W) WW). apply nth_In. lia. Qed.
Lemma loop1_spec : forall f v n r w l, loc_ok l -> (16 <= r)%nat -> (r + n <= 80)%nat -> length w = 80%nat ->
  (forall i, (i < r)%nat -> at_ w i = nth i W 0) ->
  (forall t b c d, (r <= t < r + n)%nat -> word b -> word c -> word d -> f b c d = f_t t b c d) -> (forall t, (r <= t < r + n)%nat -> v = K_t t) ->
  let '(w', l') := loop1 f v n r w l in
  loc_ok l' /\ to_st l' = fold_left (round W) (seq r n) (to_st l) /\ length w' = 80%nat /\ (forall i, (i < r + n)%nat -> at_ w' i = nth i W 0).
Proof.
  intros f v. induction n as [|n IH]; intros r w l L R R2 LW H F K; cbn [loop1].
  - cbn [seq fold_left]. split; [exact L|]. split; [reflexivity|]. split; [exact LW|]. intros i I. apply H. lia.
  - set (x := rol _ 1). assert (X : x = nth r W 0).
    { unfold x. rewrite !H by lia. rewrite rol_rotl; [|repeat apply lxor_word; apply W_word; lia|lia]. rewrite (WN r) by lia.
      rewrite !Z.lxor_assoc. reflexivity. }
    clearbody x. subst x.
    assert (H' : forall i, (i < S r)%nat -> at_ (upd r (nth r W 0) w) i = nth i W 0).
    { intros i I. unfold at_. destruct (Nat.eq_dec i r) as [->|N]; [apply upd_same; lia|]. rewrite upd_other by lia. apply H. lia. }
    assert (M : to_st (sha1macro f v (at_ (upd r (nth r W 0) w) r) l) = round W (to_st l) r).
    { rewrite H' by lia. apply macro_round; [exact L| |apply K; lia]. intros. apply F; (assumption || lia). }
    specialize (IH (S r) (upd r (nth r W 0) w) (sha1macro f v (at_ (upd r (nth r W 0) w) r) l)).
    destruct (loop1 f v n (S r) _ _) as [w' l'] eqn:E.
    destruct IH as (A & B & C & D); [apply macro_ok; exact L|lia|lia|rewrite upd_length; exact LW|exact H'|intros; apply F; (assumption || lia)|intros; apply K; lia|].
    split; [exact A|]. split; [cbn [seq fold_left]; rewrite <- M; exact B|]. split; [exact C|]. intros i I. apply D. lia.
Qed.
End Loops.

Definition of_st (s : state) : list Z := [s_a s; s_b s; s_c s; s_d s; s_e s].
Definition st_ok (s : state) : Prop := word (s_a s) /\ word (s_b s) /\ word (s_c s) /\ word (s_d s) /\ word (s_e s).
Lemma add32_word : forall x y, word (add32 x y).
Proof. intros. unfold add32, word. apply Z.mod_pos_bound. reflexivity. Qed.
Lemma compress_ok : forall h b, st_ok (compress h b).
Proof. intros h b. unfold compress, st_ok. cbn [s_a s_b s_c s_d s_e]. split; [apply add32_word|]. split; [apply add32_word|]. split; [apply add32_word|]. split; apply add32_word. Qed.
Lemma f_t_mid : forall t b c d, (20 <= t < 40)%nat -> f2 b c d = f_t t b c d.
Proof. intros. rewrite f2_Parity. unfold f_t. replace (t <? 20)%nat with false by lia. replace (t <? 40)%nat with true by lia. reflexivity. Qed.
Lemma f_t_maj : forall t b c d, (40 <= t < 60)%nat -> f3 b c d = f_t t b c d.
Proof. intros. rewrite f3_Maj. unfold f_t. replace (t <? 20)%nat with false by lia. replace (t <? 40)%nat with false by lia. replace (t <? 60)%nat with true by lia. reflexivity. Qed.
Lemma f_t_last : forall t b c d, (60 <= t < 80)%nat -> f2 b c d = f_t t b c d.
Proof. intros. rewrite f2_Parity. unfold f_t. replace (t <? 20)%nat with false by lia. replace (t <? 40)%nat with false by lia. replace (t <? 60)%nat with false by lia. reflexivity. Qed.
Lemma f_t_ch : forall t b c d, (t < 20)%nat -> word b -> word c -> word d -> f1 b c d = f_t t b c d.
Proof. intros. rewrite f1_Ch by assumption. unfold f_t. replace (t <? 20)%nat with true by lia. reflexivity. Qed.

Lemma Wt_length : forall b, length (words_of b) = 16%nat -> length (W_t b) = 80%nat.
Proof. intros b L. unfold W_t. rewrite schedule_length, L. reflexivity. Qed.
Lemma Wt_word : forall b, length (words_of b) = 16%nat -> Forall word (words_of b) -> Forall word (W_t b).
Proof. intros b L. unfold W_t. apply (schedule_word 64 (words_of b)). rewrite L. apply le_n. Qed.
Lemma Wt_next : forall b, length (words_of b) = 16%nat -> forall t, (16 <= t < 80)%nat -> nth t (W_t b) 0 =
  rotl 1 (Z.lxor (nth (t - 3) (W_t b) 0) (Z.lxor (nth (t - 8) (W_t b) 0) (Z.lxor (nth (t - 14) (W_t b) 0) (nth (t - 16) (W_t b) 0)))).
Proof. intros b L t T. unfold W_t. apply (schedule_next 64 (words_of b)); lia. Qed.
Lemma Wt_prefix : forall b, length (words_of b) = 16%nat -> forall i, (i < 16)%nat -> nth i (W_t b) 0 = nth i (words_of b) 0.
Proof. intros b L i I. unfold W_t. apply schedule_prefix. lia. Qed.

(** [ws] are the 16 words of the block *)
Lemma inner_spec : forall h w b, st_ok h -> length w = 80%nat -> length (words_of b) = 16%nat -> Forall word (words_of b) ->
  (forall i, (i < 16)%nat -> at_ w i = nth i (words_of b) 0) ->
  exists w', inner_hash (of_st h) w = (of_st (compress h b), w') /\ length w' = 80%nat.
Proof.
  intros h w b H LW LB FB A.
  pose proof (Wt_length b LB) as WL. pose proof (Wt_word b LB FB) as WW. pose proof (Wt_next b LB) as WN. pose proof (Wt_prefix b LB) as WP.
  unfold compress. set (W := W_t b) in *. clearbody W.
  assert (A' : forall i, (i < 16)%nat -> at_ w i = nth i W 0) by (intros i I; rewrite A, WP by exact I; reflexivity).
  unfold inner_hash. set (l0 := mkloc _ _ _ _ _). assert (L0 : loc_ok l0) by exact H. assert (T0 : to_st l0 = h) by (destruct h; reflexivity). clearbody l0.
  destruct (loop0_spec W 16 0 w l0 L0 ltac:(lia) A') as (L1 & T1). set (l1 := loop0 16 0 w l0) in *. clearbody l1.
  pose proof (loop1_spec W WL WW WN f1 1518500249 4 16 w l1 L1 ltac:(lia) ltac:(lia) LW A') as P.
  destruct (loop1 f1 1518500249 4 16 w l1) as [w2 l2]. destruct P as (L2 & T2 & LW2 & A2); [intros; apply f_t_ch; (assumption || lia)|intros t T; unfold K_t; replace (t <? 20)%nat with true by lia; reflexivity|].
  pose proof (loop1_spec W WL WW WN f2 1859775393 20 20 w2 l2 L2 ltac:(lia) ltac:(lia) LW2 A2) as P.
  destruct (loop1 f2 1859775393 20 20 w2 l2) as [w3 l3]. destruct P as (L3 & T3 & LW3 & A3);
    [intros; apply f_t_mid; lia|intros t T; unfold K_t; replace (t <? 20)%nat with false by lia; replace (t <? 40)%nat with true by lia; reflexivity|].
  pose proof (loop1_spec W WL WW WN f3 2400959708 20 40 w3 l3 L3 ltac:(lia) ltac:(lia) LW3 A3) as P.
  destruct (loop1 f3 2400959708 20 40 w3 l3) as [w4 l4]. destruct P as (L4 & T4 & LW4 & A4);
    [intros; apply f_t_maj; lia|intros t T; unfold K_t; replace (t <? 20)%nat with false by lia; replace (t <? 40)%nat with false by lia; replace (t <? 60)%nat with true by lia; reflexivity|].
  pose proof (loop1_spec W WL WW WN f2 3395469782 20 60 w4 l4 L4 ltac:(lia) ltac:(lia) LW4 A4) as P.
  destruct (loop1 f2 3395469782 20 60 w4 l4) as [w5 l5]. destruct P as (L5 & T5 & LW5 & A5);
    [intros; apply f_t_last; lia|intros t T; unfold K_t; replace (t <? 20)%nat with false by lia; replace (t <? 40)%nat with false by lia; replace (t <? 60)%nat with false by lia; reflexivity|].
  exists w5. split; [|exact LW5]. f_equal.
  assert (T : to_st l5 = fold_left (round W) (seq 0 80) h).
  { rewrite T5, T4, T3, T2, T1, T0. rewrite <- !fold_left_app. f_equal. }
  rewrite <- T. unfold of_st, to_st, add32, u32, to_u, at_. cbn [nth s_a s_b s_c s_d s_e]. reflexivity.
Qed.

(** ** Words of blocks *)
Definition word4 (l : list Z) (p : nat) : Z := be_val [nth p l 0; nth (p + 1) l 0; nth (p + 2) l 0; nth (p + 3) l 0].
Lemma be4 : forall a b c d, be_val [a; b; c; d] = a * 16777216 + b * 65536 + c * 256 + d.
Proof. intros. cbn [be_val length]. change (256 ^ Z.of_nat 3) with 16777216. change (256 ^ Z.of_nat 2) with 65536. change (256 ^ Z.of_nat 1) with 256. change (256 ^ Z.of_nat 0) with 1. lia. Qed.
Lemma nth_byte : forall l i, Forall is_byte l -> is_byte (nth i l 0).
Proof.
  intros l i F. destruct (lt_dec i (length l)) as [L|L]; [apply (proj1 (Forall_forall _ l) F), nth_In; exact L|]. rewrite nth_overflow by lia. unfold is_byte. lia.
Qed.
Lemma word4_word : forall l p, Forall is_byte l -> word (word4 l p).
Proof.
  intros l p F. unfold word4. rewrite be4. pose proof (nth_byte l p F). pose proof (nth_byte l (p + 1) F). pose proof (nth_byte l (p + 2) F). pose proof (nth_byte l (p + 3) F).
  unfold is_byte, word in *. change W32 with 4294967296. lia.
Qed.
Lemma first4 : forall l p, (p + 4 <= length l)%nat -> firstn 4 (skipn p l) = [nth p l 0; nth (p + 1) l 0; nth (p + 2) l 0; nth (p + 3) l 0].
Proof.
  intros l p L. assert (N : forall i, nth (p + i) l 0 = nth i (skipn p l) 0).
  { intros i. revert l L. induction p as [|p IH]; intros l L; [reflexivity|]. destruct l as [|x l]; [cbn in L; lia|]. apply IH. cbn in L. lia. }
  replace (nth p l 0) with (nth 0 (skipn p l) 0) by (rewrite <- N; f_equal; lia). rewrite !N.
  pose proof (skipn_length p l) as SL. destruct (skipn p l) as [|a [|b [|c [|d r]]]]; cbn in SL; try lia. reflexivity.
Qed.
Lemma split4 : forall k f (l : list Z), length l = (4 * k)%nat -> (k <= f)%nat ->
  length (split_every f 4 l) = k /\ forall q, (q < k)%nat -> nth q (split_every f 4 l) [] = firstn 4 (skipn (4 * q) l).
Proof.
  induction k as [|k IH]; intros f l L F.
  - destruct l; [|cbn in L; lia]. destruct f; cbn; split; try reflexivity; intros; lia.
  - destruct f as [|f]; [lia|]. destruct l as [|a [|b [|c [|d l]]]]; try (cbn in L; lia). cbn [split_every].
    change (skipn 4 (a :: b :: c :: d :: l)) with l. destruct (IH f l) as [A B]; [cbn in L; lia|lia|]. split; [cbn [length]; rewrite A; reflexivity|].
    intros [|q] Q; [reflexivity|]. cbn [nth]. rewrite B by lia. replace (4 * S q)%nat with (S (S (S (S (4 * q))))) by lia. reflexivity.
Qed.
Lemma words_spec : forall b, length b = 64%nat -> length (words_of b) = 16%nat /\ forall q, (q < 16)%nat -> nth q (words_of b) 0 = word4 b (4 * q).
Proof.
  intros b L. destruct (split4 16 64 b ltac:(rewrite L; reflexivity) ltac:(lia)) as [A B]. unfold words_of. rewrite L. split; [rewrite map_length; exact A|].
  intros q Q. change 0 with (be_val []) at 1. rewrite map_nth, B by exact Q. unfold word4. rewrite first4 by lia. reflexivity.
Qed.
Lemma words_word : forall b, length b = 64%nat -> Forall is_byte b -> Forall word (words_of b).
Proof.
  intros b L F. destruct (words_spec b L) as [A B]. apply Forall_forall. intros x I. apply (In_nth _ _ 0) in I. destruct I as (q & Q & <-).
  rewrite A in Q. rewrite B by exact Q. apply word4_word. exact F.
Qed.
Lemma word4_app : forall l r p, (p + 4 <= length l)%nat -> word4 (l ++ r) p = word4 l p.
Proof. intros l r p L. unfold word4. rewrite !app_nth1 by lia. reflexivity. Qed.
Lemma word4_skip : forall l c p, word4 (skipn c l) p = word4 l (c + p).
Proof.
  intros l c p. assert (N : forall i, nth i (skipn c l) 0 = nth (c + i) l 0).
  { intros i. revert l. induction c as [|c IH]; intros l; [reflexivity|]. destruct l as [|x l]; [cbn; destruct i; reflexivity|]. apply IH. }
  unfold word4. rewrite !N, !Nat.add_assoc. reflexivity.
Qed.
Lemma word4_zero : forall l m p, word4 (l ++ repeat 0 m) p = word4 l p.
Proof.
  intros l m p. assert (N : forall i, nth i (l ++ repeat 0 m) 0 = nth i l 0).
  { intros i. destruct (lt_dec i (length l)) as [C|C]; [apply app_nth1; exact C|]. rewrite app_nth2 by lia. rewrite (nth_overflow l) by lia. apply nth_repeat. }
  unfold word4. rewrite !N. reflexivity.
Qed.

(** ** Loading *)
Lemma lor4 : forall a b c d, is_byte a -> is_byte b -> is_byte c -> is_byte d ->
  Z.lor (Z.lor (Z.lor d (Z.shiftl c 8)) (Z.shiftl b 16)) (Z.shiftl a 24) = be_val [a; b; c; d].
Proof.
  intros a b c d A B C D. rewrite be4. rewrite !Z.shiftl_mul_pow2 by lia. change (2 ^ 8) with 256. change (2 ^ 16) with 65536. change (2 ^ 24) with 16777216. unfold is_byte in *.
  rewrite (Z.lor_comm d), (lor_add (c * 256) d 8); [|lia|change (2 ^ 8) with 256; lia|exists c; reflexivity].
  rewrite (Z.lor_comm (c * 256 + d)), (lor_add (b * 65536) _ 16); [|lia|change (2 ^ 16) with 65536; lia|exists b; reflexivity].
  rewrite (Z.lor_comm (b * 65536 + _)), (lor_add (a * 16777216) _ 24); [lia|lia|change (2 ^ 24) with 16777216; lia|exists a; reflexivity].
Qed.
Lemma load_block_spec : forall src, Forall is_byte src -> forall n r cur w, length w = 80%nat -> (r + n <= 16)%nat ->
  let w' := load_block n r (cur + 4 * r) src w in
  length w' = 80%nat /\ (forall i, (i < r)%nat -> at_ w' i = at_ w i) /\ (forall i, (r <= i < r + n)%nat -> at_ w' i = word4 src (cur + 4 * i)).
Proof.
  intros src F. induction n as [|n IH]; intros r cur w L R w'; unfold w'; cbn [load_block].
  - split; [exact L|]. split; [reflexivity|intros; lia].
  - set (x := Z.lor _ _). assert (X : x = word4 src (cur + 4 * r)) by (apply lor4; apply nth_byte; exact F). clearbody x. subst x.
    replace (cur + 4 * r + 4)%nat with (cur + 4 * S r)%nat by lia.
    destruct (IH (S r) cur (upd r (word4 src (cur + 4 * r)) w)) as (A & B & C); [rewrite upd_length; exact L|lia|]. split; [exact A|]. split.
    + intros i I. rewrite B by lia. apply upd_other. lia.
    + intros i I. destruct (Nat.eq_dec i r) as [->|N]; [|apply C; lia]. rewrite B by lia. apply upd_same. lia.
Qed.
Lemma or_byte_spec : forall t v w, Forall is_byte t -> is_byte v -> (length t < 64)%nat -> length w = 80%nat ->
  (forall i, (i < 16)%nat -> at_ w i = word4 t (4 * i)) ->
  length (or_byte w (length t) v) = 80%nat /\ forall i, (i < 16)%nat -> at_ (or_byte w (length t) v) i = word4 (t ++ [v]) (4 * i).
Proof.
  intros t v w F V LT LW H. unfold or_byte. set (n := length t) in *. split; [rewrite upd_length; exact LW|]. intros i I.
  assert (OV : forall k, (n <= k)%nat -> nth k t 0 = 0) by (intros k K; apply nth_overflow; exact K).
  assert (SN : nth n (t ++ [v]) 0 = v) by (rewrite app_nth2 by (fold n; lia); fold n; rewrite Nat.sub_diag; reflexivity).
  assert (ON : forall k, k <> n -> nth k (t ++ [v]) 0 = nth k t 0).
  { intros k K. destruct (lt_dec k n) as [C|C]; [apply app_nth1; exact C|]. rewrite OV by lia. apply nth_overflow. rewrite app_length. cbn [length]. fold n. lia. }
  pose proof (Nat.div_mod n 4 ltac:(lia)) as DM. pose proof (Nat.mod_upper_bound n 4 ltac:(lia)) as MB.
  unfold at_. destruct (Nat.eq_dec i (n / 4)) as [E|N].
  - subst i. rewrite upd_same by lia. fold (at_ w (n / 4)). rewrite H by lia. replace (Z.of_nat n mod 4) with (Z.of_nat (n mod 4)) by lia.
    set (q := (n / 4)%nat) in *. unfold u32, to_u. unfold is_byte in V.
    pose proof (nth_byte t (4 * q) F) as B0. pose proof (nth_byte t (4 * q + 1) F) as B1. pose proof (nth_byte t (4 * q + 2) F) as B2. unfold is_byte in *.
    unfold word4. rewrite !be4. change (2 ^ 32) with 4294967296.
    assert (CS : (n mod 4 = 0 \/ n mod 4 = 1 \/ n mod 4 = 2 \/ n mod 4 = 3)%nat) by lia. destruct CS as [C|[C|[C|C]]]; rewrite C in *.
    + assert (n = 4 * q)%nat by lia. change (8 * (3 - Z.of_nat 0)) with 24. rewrite Z.shiftl_mul_pow2 by lia. change (2 ^ 24) with 16777216. rewrite Z.mod_small by lia.
      rewrite !(ON (4 * q + _)%nat) by lia. rewrite !(OV (4 * q + _)%nat) by lia. rewrite (OV (4 * q)%nat) by lia. replace (4 * q)%nat with n by lia. rewrite SN. rewrite Z.lor_0_l. lia.
    + assert (n = 4 * q + 1)%nat by lia. change (8 * (3 - Z.of_nat 1)) with 16. rewrite Z.shiftl_mul_pow2 by lia. change (2 ^ 16) with 65536. rewrite Z.mod_small by lia.
      rewrite (ON (4 * q)%nat), (ON (4 * q + 2)%nat), (ON (4 * q + 3)%nat) by lia. rewrite (OV (4 * q + 1)%nat), (OV (4 * q + 2)%nat), (OV (4 * q + 3)%nat) by lia.
      replace (4 * q + 1)%nat with n by lia. rewrite SN. rewrite (lor_add _ _ 24); [lia|lia|change (2 ^ 24) with 16777216; lia|]. exists (nth (4 * q) t 0). change (2 ^ 24) with 16777216. lia.
    + assert (n = 4 * q + 2)%nat by lia. change (8 * (3 - Z.of_nat 2)) with 8. rewrite Z.shiftl_mul_pow2 by lia. change (2 ^ 8) with 256. rewrite Z.mod_small by lia.
      rewrite (ON (4 * q)%nat), (ON (4 * q + 1)%nat), (ON (4 * q + 3)%nat) by lia. rewrite (OV (4 * q + 2)%nat), (OV (4 * q + 3)%nat) by lia.
      replace (4 * q + 2)%nat with n by lia. rewrite SN. rewrite (lor_add _ _ 16); [lia|lia|change (2 ^ 16) with 65536; lia|]. exists (nth (4 * q) t 0 * 256 + nth (4 * q + 1) t 0). change (2 ^ 16) with 65536. lia.
    + assert (n = 4 * q + 3)%nat by lia. change (8 * (3 - Z.of_nat 3)) with 0. rewrite Z.shiftl_0_r. rewrite Z.mod_small by lia.
      rewrite (ON (4 * q)%nat), (ON (4 * q + 1)%nat), (ON (4 * q + 2)%nat) by lia. rewrite (OV (4 * q + 3)%nat) by lia.
      replace (4 * q + 3)%nat with n by lia. rewrite SN. rewrite (lor_add _ _ 8); [lia|lia|change (2 ^ 8) with 256; lia|]. exists (nth (4 * q) t 0 * 65536 + nth (4 * q + 1) t 0 * 256 + nth (4 * q + 2) t 0). change (2 ^ 8) with 256. lia.
  - rewrite upd_other by exact N. fold (at_ w i). rewrite H by exact I. unfold word4. rewrite !ON by lia. reflexivity.
Qed.
Lemma load_last_spec : forall t src cur, Forall is_byte src -> forall n w, (length t + n <= 64)%nat -> (n <= length (skipn cur src) - length t)%nat ->
  t = firstn (length t) (skipn cur src) -> Forall is_byte t -> length w = 80%nat -> (forall i, (i < 16)%nat -> at_ w i = word4 t (4 * i)) ->
  let w' := load_last n (length t) cur src w in
  length w' = 80%nat /\ forall i, (i < 16)%nat -> at_ w' i = word4 (firstn (length t + n) (skipn cur src)) (4 * i).
Proof.
  intros t src cur F n. revert t. induction n as [|n IH]; intros t w L1 L2 T FT LW H w'; unfold w'; cbn [load_last].
  - rewrite Nat.add_0_r, <- T. auto.
  - set (v := at_ src (length t + cur)). assert (V : is_byte v) by (apply nth_byte; exact F).
    destruct (or_byte_spec t v w FT V ltac:(lia) LW H) as (A & B).
    assert (LT : length (t ++ [v]) = S (length t)) by (rewrite app_length; cbn [length]; lia).
    assert (TV : t ++ [v] = firstn (S (length t)) (skipn cur src)).
    { assert (N : nth (length t) (skipn cur src) 0 = v).
      { unfold v, at_. clear. revert src. induction cur as [|c IH]; intros src; [rewrite Nat.add_0_r; reflexivity|]. destruct src as [|x src]; [cbn; destruct (length t), (length t + S c)%nat; reflexivity|].
        rewrite Nat.add_succ_r. apply IH. }
      rewrite T at 1. rewrite <- N. generalize (skipn cur src) (length t) L2. clear. intros l k L. revert k L. induction l as [|x l IH]; intros k L; [cbn in L; lia|].
      destruct k as [|k]; [reflexivity|]. cbn [firstn nth app]. f_equal. apply (IH k). cbn in L. lia. }
    specialize (IH (t ++ [v]) (or_byte w (length t) v)). rewrite LT in IH. cbn zeta in IH. replace (length t + S n)%nat with (S (length t) + n)%nat by lia.
    apply IH; [lia|lia|exact TV|apply Forall_app; split; [exact FT|constructor; [exact V|constructor]]|exact A|exact B].
Qed.
Lemma clear_spec : forall w, length w = 80%nat -> length (clear_w w) = 80%nat /\ forall i, (i < 16)%nat -> at_ (clear_w w) i = word4 [] (4 * i).
Proof.
  intros w L. unfold clear_w. split; [rewrite app_length, repeat_length, skipn_length; lia|]. intros i I. unfold at_.
  rewrite app_nth1 by (rewrite repeat_length; exact I). rewrite nth_repeat. unfold word4. rewrite be4. rewrite !nth_overflow by (cbn; lia). reflexivity.
Qed.

(** ** Blocks *)
Lemma split_fuel : forall A n f (l : list A), (0 < n)%nat -> (length l <= f)%nat -> split_every f n l = split_every (length l) n l.
Proof.
  intros A n f l N. revert l. induction f as [f IH] using lt_wf_ind. intros l L. destruct l as [|x l]; [destruct f; reflexivity|]. destruct f as [|f]; [cbn in L; lia|].
  cbn [length split_every]. f_equal. pose proof (skipn_length n (x :: l)) as SL. cbn [length] in *.
  rewrite (IH f) by lia. destruct (Nat.eq_dec f (length l)) as [->|NE]; [symmetry; apply IH; lia|]. symmetry. apply IH; lia.
Qed.
Lemma blocks_cons : forall b l, length b = 64%nat -> blocks_of (b ++ l) = b :: blocks_of l.
Proof.
  intros b l L. unfold blocks_of. destruct b as [|x b]; [discriminate L|]. cbn [app length split_every].
  rewrite <- app_comm_cons || idtac. change (x :: b ++ l) with ((x :: b) ++ l). rewrite firstn_app, skipn_app. rewrite L, Nat.sub_diag.
  rewrite firstn_all2 by lia. rewrite skipn_all2 by lia. cbn [firstn skipn app]. rewrite app_nil_r. f_equal. apply split_fuel; [lia|]. rewrite app_length. lia.
Qed.
Lemma blocks_nil : blocks_of [] = [].
Proof. reflexivity. Qed.
Lemma inner_bytes : forall h w b, st_ok h -> length w = 80%nat -> length b = 64%nat -> Forall is_byte b -> (forall i, (i < 16)%nat -> at_ w i = word4 b (4 * i)) ->
  exists w', inner_hash (of_st h) w = (of_st (compress h b), w') /\ length w' = 80%nat.
Proof.
  intros h w b H LW LB FB A. destruct (words_spec b LB) as [C D]. apply inner_spec; [exact H|exact LW|exact C|apply words_word; assumption|].
  intros i I. rewrite D by exact I. apply A. exact I.
Qed.
Lemma full_blocks_spec : forall src, Forall is_byte src -> forall fuel cur h w, st_ok h -> length w = 80%nat -> (cur mod 64 = 0)%nat -> (cur <= length src)%nat ->
  ((length src - cur) / 64 < fuel)%nat ->
  exists cur' h' w', full_blocks fuel src cur (of_st h) w = (cur', of_st h', w') /\ st_ok h' /\ length w' = 80%nat /\ (cur' mod 64 = 0)%nat /\
    (cur' <= length src)%nat /\ (length src - cur' < 64)%nat /\
    forall X, fold_left compress (blocks_of (skipn cur src ++ X)) h = fold_left compress (blocks_of (skipn cur' src ++ X)) h'.
Proof.
  intros src F. induction fuel as [|fuel IH]; intros cur h w H LW M C FU; [lia|]. cbn [full_blocks].
  destruct (Z.leb_spec (Z.of_nat cur) (Z.of_nat (length src) - 64)) as [LE|GT].
  - destruct (load_block_spec src F 16 0 cur w LW ltac:(lia)) as (A & _ & B). rewrite Nat.mul_0_r, Nat.add_0_r in A, B.
    set (b := firstn 64 (skipn cur src)). assert (LB : length b = 64%nat) by (unfold b; rewrite firstn_length, skipn_length; lia).
    assert (SB : skipn cur src = b ++ skipn (cur + 64) src).
    { unfold b. rewrite <- (firstn_skipn 64 (skipn cur src)) at 1. f_equal. clear. revert src. induction cur as [|c IH]; intros src; [reflexivity|]. destruct src; [reflexivity|apply IH]. }
    assert (FB : Forall is_byte b). { apply Forall_forall. intros x I. apply (proj1 (Forall_forall _ src) F). unfold b in I.
      rewrite <- (firstn_skipn cur src). apply in_or_app. right. rewrite <- (firstn_skipn 64 (skipn cur src)). apply in_or_app. left. exact I. }
    destruct (inner_bytes h (load_block 16 0 cur src w) b H A LB FB) as (w2 & E & LW2).
    { intros i I. rewrite B by lia. rewrite <- word4_skip, SB. apply word4_app. lia. }
    rewrite E. destruct (IH (cur + 64)%nat (compress h b) w2) as (cur' & h' & w' & E2 & R); [apply compress_ok|exact LW2| |lia| |].
    { replace (cur + 64)%nat with (cur + 1 * 64)%nat by lia. rewrite Nat.mod_add by lia. exact M. }
    { assert ((length src - cur) / 64 = S ((length src - (cur + 64)) / 64))%nat; [|lia].
      replace (length src - cur)%nat with ((length src - (cur + 64)) + 1 * 64)%nat by lia. rewrite Nat.div_add by lia. lia. }
    exists cur', h', w'. split; [exact E2|]. destruct R as (R1 & R2 & R3 & R4 & R5 & R6). split; [exact R1|]. split; [exact R2|]. split; [exact R3|]. split; [exact R4|]. split; [exact R5|].
    intros X. rewrite SB, <- app_assoc, blocks_cons by exact LB. cbn [fold_left]. apply R6.
  - exists cur, h, w. split; [reflexivity|]. split; [exact H|]. split; [exact LW|]. split; [exact M|]. split; [exact C|]. split; [lia|reflexivity].
Qed.

(** ** The end of the message *)
Lemma be8 : forall x, 0 <= x < W32 -> exists d, be_bytes 8 x = [0; 0; 0; 0] ++ d /\ length d = 4%nat /\ Forall is_byte d /\ be_val d = x.
Proof.
  intros x X. exists (be_bytes 4 x).
  assert (D : x / 256 / 256 / 256 / 256 = 0). { rewrite !Zdiv.Zdiv_Zdiv by lia. apply Z.div_small. exact X. }
  split; [|split; [reflexivity|split]].
  - unfold be_bytes. cbn [le_bytes rev app]. rewrite D. reflexivity.
  - unfold be_bytes. apply Forall_rev. apply le_bytes_byte.
  - unfold be_bytes. cbn [le_bytes rev app]. rewrite be4. pose proof (Z.div_mod x 256). pose proof (Z.div_mod (x / 256) 256). pose proof (Z.div_mod (x / 256 / 256) 256). pose proof (Z.div_mod (x / 256 / 256 / 256) 256). lia.
Qed.
Lemma shahash_spec : forall src w, Forall is_byte src -> Z.of_nat (length src) < 2 ^ 29 -> length w = 80%nat -> shahash src w = sha1 src.
Proof.
  intros src w F LS LW. unfold shahash, sha1.
  change [1732584193; 4023233417; 2562383102; 271733878; 3285377520] with (of_st H0).
  destruct (full_blocks_spec src F (S (length src / 64)) 0 H0 w) as (cur & h & w1 & E & OK & LW1 & M & C & N & R).
  { unfold st_ok, word. cbn. unfold W32. lia. } { exact LW. } { reflexivity. } { lia. } { rewrite Nat.sub_0_r. lia. }
  rewrite E. clear E. cbn [skipn] in R. unfold padded. rewrite R. clear R.
  set (n := (length src - cur)%nat) in *. set (t := skipn cur src) in *. assert (LT : length t = n) by (unfold t; apply skipn_length).
  assert (FT : Forall is_byte t). { apply Forall_forall. intros x I. apply (proj1 (Forall_forall _ src) F). rewrite <- (firstn_skipn cur src). apply in_or_app. right. exact I. }
  destruct (clear_spec w1 LW1) as (LC & HC).
  destruct (load_last_spec [] src cur F n (clear_w w1)) as (LL & HL); [cbn; lia|fold t; cbn; lia|reflexivity|constructor|exact LC|exact HC|].
  cbn [length] in LL, HL. fold t in HL. cbn [Nat.add] in HL. rewrite firstn_all2 in HL by lia. set (w2 := load_last n 0 cur src (clear_w w1)) in *. clearbody w2.
  destruct (or_byte_spec t 128 w2 FT ltac:(unfold is_byte; lia) ltac:(lia) LL HL) as (L3 & H3). rewrite LT in L3, H3. set (w3 := or_byte w2 n 128) in *. clearbody w3.
  set (len := length src) in *.
  destruct (be8 (8 * Z.of_nat len)) as (d & D1 & D2 & D3 & D4). { unfold W32. change (2 ^ 29) with 536870912 in LS. change (2 ^ 32) with 4294967296. lia. }
  assert (V : u32 (Z.shiftl (Z.of_nat len) 3) = be_val d).
  { rewrite D4. rewrite Z.shiftl_mul_pow2 by lia. change (2 ^ 3) with 8. unfold u32. rewrite to_u_small; [lia|]. change (2 ^ 29) with 536870912 in LS. change (2 ^ 32) with 4294967296. lia. }
  rewrite V. clear V. unfold padding. rewrite D1.
  assert (FZ : forall k, Forall is_byte (repeat 0 k)) by (intros k; apply Forall_forall; intros x I; apply repeat_spec in I; subst; unfold is_byte; lia).
  (* the last words of a block that ends with the length *)
  assert (LAST : forall h' pre wx, st_ok h' -> length wx = 80%nat -> (length pre <= 56)%nat -> Forall is_byte pre -> (forall i, (i < 16)%nat -> at_ wx i = word4 pre (4 * i)) ->
    exists w', inner_hash (of_st h') (upd 15 (be_val d) wx) = (of_st (compress h' (pre ++ repeat 0 (56 - length pre) ++ [0; 0; 0; 0] ++ d)), w')).
  { intros h' pre wx OK' LX LP FP HX. destruct (inner_bytes h' (upd 15 (be_val d) wx) (pre ++ repeat 0 (56 - length pre) ++ [0; 0; 0; 0] ++ d)) as (w' & E' & _).
    - exact OK'. - rewrite upd_length. exact LX.
    - rewrite !app_length, repeat_length. cbn [length]. lia.
    - repeat (apply Forall_app; split); auto. repeat constructor; unfold is_byte; lia.
    - intros i I. unfold at_. destruct (Nat.eq_dec i 15) as [->|N15].
      + rewrite upd_same by lia. destruct d as [|d0 [|d1 [|d2 [|d3 [|]]]]]; try discriminate D2. unfold word4.
        assert (Q : forall k, (k < 4)%nat -> nth (60 + k) (pre ++ repeat 0 (56 - length pre) ++ [0; 0; 0; 0] ++ [d0; d1; d2; d3]) 0 = nth k [d0; d1; d2; d3] 0).
        { intros k K. rewrite app_nth2 by lia. rewrite app_nth2 by (rewrite repeat_length; lia). rewrite repeat_length. rewrite app_nth2 by (cbn [length]; lia). f_equal. cbn [length]. lia. }
        change (4 * 15)%nat with (60 + 0)%nat. rewrite <- !Nat.add_assoc. change (0 + 1)%nat with 1%nat. change (0 + 2)%nat with 2%nat. change (0 + 3)%nat with 3%nat. rewrite !Q by lia. reflexivity.
      + rewrite upd_other by exact N15. fold (at_ wx i). rewrite HX by exact I. symmetry.
        replace (pre ++ repeat 0 (56 - length pre) ++ [0; 0; 0; 0] ++ d) with ((pre ++ repeat 0 (56 - length pre + 4)) ++ d).
        2:{ change [0; 0; 0; 0] with (repeat 0 4). rewrite repeat_app, !app_assoc. reflexivity. }
        rewrite word4_app by (rewrite app_length, repeat_length; lia). apply word4_zero.
    - exists w'. exact E'. }
  assert (KK : Z.to_nat ((55 - Z.of_nat len) mod 64) = if (56 <=? n)%nat then (119 - n)%nat else (55 - n)%nat).
  { assert (Q : exists q, cur = (64 * q)%nat) by (exists (cur / 64)%nat; pose proof (Nat.div_mod cur 64 ltac:(lia)); lia). destruct Q as [q Q].
    destruct (Nat.leb_spec 56 n) as [B|B].
    - replace (55 - Z.of_nat len) with (Z.of_nat (119 - n) + (- Z.of_nat q - 1) * 64) by lia. rewrite Z.mod_add, Z.mod_small by lia. lia.
    - replace (55 - Z.of_nat len) with (Z.of_nat (55 - n) + (- Z.of_nat q) * 64) by lia. rewrite Z.mod_add, Z.mod_small by lia. lia. }
  rewrite KK. clear KK.
  assert (FT1 : Forall is_byte (t ++ [128])) by (apply Forall_app; split; [exact FT|constructor; [unfold is_byte; lia|constructor]]).
  assert (LT1 : length (t ++ [128]) = S n) by (rewrite app_length; cbn [length]; lia).
  assert (FIN : forall h', st_ok h' -> map (fun k : nat => Z.land (Z.shiftr (at_ (of_st h') (k / 4)) (Z.of_nat (Z.to_nat ((3 - Z.of_nat k) mod 4) * 8))) 255) (seq 0 20)
    = flat_map (be_bytes 4) [s_a h'; s_b h'; s_c h'; s_d h'; s_e h']).
  { clear. intros h' (A & B & C & D & E). destruct h' as [a b c d e]. cbn [s_a s_b s_c s_d s_e] in *. unfold of_st. cbn [s_a s_b s_c s_d s_e].
    assert (X : forall x, [Z.land (Z.shiftr x 24) 255; Z.land (Z.shiftr x 16) 255; Z.land (Z.shiftr x 8) 255; Z.land (Z.shiftr x 0) 255] = be_bytes 4 x).
    { intros x. unfold be_bytes. cbn [le_bytes rev app]. change 255 with (Z.ones 8). rewrite !Z.land_ones by lia. rewrite !Z.shiftr_div_pow2 by lia. change (2 ^ 8) with 256. change (2 ^ 16) with (256 * 256). change (2 ^ 24) with (256 * 256 * 256). change (2 ^ 0) with 1.
      rewrite Z.div_1_r. rewrite <- !Zdiv.Zdiv_Zdiv by lia. reflexivity. }
    cbn [flat_map]. rewrite <- !X. reflexivity. }
  destruct (Nat.leb_spec 56 n) as [B|B].
  - (* two blocks *)
    destruct (inner_bytes h w3 ((t ++ [128]) ++ repeat 0 (63 - n))) as (w4 & E4 & L4); [exact OK|exact L3|rewrite app_length, repeat_length; lia|apply Forall_app; split; auto| |].
    { intros i I. rewrite word4_zero. apply H3. exact I. }
    rewrite E4. cbv beta iota. destruct (clear_spec w4 L4) as (L5 & H5).
    destruct (LAST (compress h ((t ++ [128]) ++ repeat 0 (63 - n))) [] (clear_w w4)) as (w6 & E6); [apply compress_ok|exact L5|cbn; lia|constructor|exact H5|].
    rewrite E6. cbv beta iota. rewrite FIN by apply compress_ok. f_equal.
    replace (t ++ 128 :: repeat 0 (119 - n) ++ [0; 0; 0; 0] ++ d) with (((t ++ [128]) ++ repeat 0 (63 - n)) ++ (([] ++ repeat 0 (56 - 0) ++ [0; 0; 0; 0] ++ d) ++ [])).
    2:{ rewrite app_nil_r. replace (119 - n)%nat with (63 - n + 56)%nat by lia. rewrite repeat_app. rewrite <- !app_assoc. reflexivity. }
    rewrite !blocks_cons; [|rewrite !app_length, repeat_length; cbn [length]; lia|rewrite app_length, repeat_length; lia]. reflexivity.
  - (* one block *)
    cbv beta iota. destruct (LAST h (t ++ [128]) w3) as (w6 & E6); [exact OK|exact L3|lia|exact FT1|exact H3|].
    rewrite E6. cbv beta iota. rewrite FIN by apply compress_ok. f_equal.
    replace (t ++ 128 :: repeat 0 (55 - n) ++ [0; 0; 0; 0] ++ d) with (((t ++ [128]) ++ repeat 0 (56 - length (t ++ [128])) ++ [0; 0; 0; 0] ++ d) ++ []).
    2:{ rewrite app_nil_r, LT1. replace (56 - S n)%nat with (55 - n)%nat by lia. rewrite <- !app_assoc. reflexivity. }
    rewrite blocks_cons; [reflexivity|]. rewrite !app_length, repeat_length. cbn [length]. rewrite LT1 || idtac. lia.
Qed.

(** ** Base64 *)
Lemma table_char : forall v, 0 <= v < 64 -> at_ enc_table (Z.to_nat v) = b64_char v.
Proof.
  assert (A : forallb (fun k => at_ enc_table k =? b64_char (Z.of_nat k)) (seq 0 64) = true) by (vm_compute; reflexivity).
  intros v V. pose proof (proj1 (forallb_forall _ _) A (Z.to_nat v)) as B. cbv beta in B. rewrite Z2Nat.id in B by lia. apply Z.eqb_eq, B. apply in_seq. lia.
Qed.
Lemma decode_char : forall v, 0 <= v < 64 -> map_decode (b64_char v) = v /\ (b64_char v =? 61) = false /\ ((b64_char v <? 43) || (122 <? b64_char v)) = false.
Proof.
  assert (A : forallb (fun k => (map_decode (b64_char (Z.of_nat k)) =? Z.of_nat k) && negb (b64_char (Z.of_nat k) =? 61) && negb ((b64_char (Z.of_nat k) <? 43) || (122 <? b64_char (Z.of_nat k)))) (seq 0 64) = true) by (vm_compute; reflexivity).
  intros v V. pose proof (proj1 (forallb_forall _ _) A (Z.to_nat v)) as B. cbv beta in B. rewrite Z2Nat.id in B by lia. specialize (B ltac:(apply in_seq; lia)).
  apply andb_prop in B. destruct B as [B B3]. apply andb_prop in B. destruct B as [B1 B2]. apply Z.eqb_eq in B1. apply negb_true_iff in B2, B3. auto.
Qed.
Lemma mod64 : forall x, 0 <= x mod 64 < 64.
Proof. intros. apply Z.mod_pos_bound. reflexivity. Qed.
Lemma digit_enc : forall t k, 0 <= k -> at_ enc_table (Z.to_nat (Z.land (Z.shiftr t (k * 6)) 63)) = b64_digit t k.
Proof.
  intros t k K. change 63 with (Z.ones 6). rewrite Z.land_ones, Z.shiftr_div_pow2 by lia. change (2 ^ 6) with 64. rewrite table_char by apply mod64. unfold b64_digit.
  f_equal. f_equal. f_equal. change 64 with (2 ^ 6). rewrite <- Z.pow_mul_r by lia. f_equal. lia.
Qed.
Lemma enc_loop3 : forall n i hash a b c, nth i hash 0 = a -> nth (i + 1) hash 0 = b -> nth (i + 2) hash 0 = c ->
  let t := a * 65536 + b * 256 + c in
  enc_loop (S n) i hash = b64_digit t 3 :: b64_digit t 2 :: b64_digit t 1 :: b64_digit t 0 :: enc_loop n (i + 3) hash.
Proof.
  intros n i hash a b c A B C t. cbn [enc_loop]. rewrite A, B, C. rewrite !digit_enc by lia. rewrite !Z.shiftl_mul_pow2 by lia. reflexivity.
Qed.
Lemma sha1_length : forall m, length (sha1 m) = 20%nat.
Proof. intros m. unfold sha1. set (h := fold_left _ _ _). clearbody h. reflexivity. Qed.
Lemma enc20 : forall l, length l = 20%nat -> upd 27 61 (enc_loop 7 0 l) = b64 l.
Proof.
  intros l L. do 20 (destruct l as [|? l]; [discriminate L|]). destruct l; [|discriminate L]. clear L.
  repeat (erewrite enc_loop3 by reflexivity; cbn [Nat.add]). cbn [enc_loop upd b64]. rewrite Z.add_0_r. reflexivity.
Qed.
Lemma shacalc_spec : forall src w, Forall is_byte src -> Z.of_nat (length src) < 2 ^ 29 -> length w = 80%nat -> shacalc src w = b64 (sha1 src).
Proof. intros src w F L LW. unfold shacalc. rewrite shahash_spec by assumption. apply enc20. apply sha1_length. Qed.

(** the digits of three bytes *)
Lemma digits3 : forall a b c, is_byte a -> is_byte b -> is_byte c -> let n := a * 65536 + b * 256 + c in
  n / 64 ^ 3 mod 64 = a / 4 /\ n / 64 ^ 2 mod 64 = a mod 4 * 16 + b / 16 /\ n / 64 ^ 1 mod 64 = b mod 16 * 4 + c / 64 /\ n / 64 ^ 0 mod 64 = c mod 64.
Proof.
  intros a b c A B C n. unfold is_byte in *. change (64 ^ 3) with 262144. change (64 ^ 2) with 4096. change (64 ^ 1) with 64. change (64 ^ 0) with 1. unfold n.
  repeat split; Z.to_euclidean_division_equations; lia.
Qed.
Lemma enc_bits : forall dot ch, is_byte dot -> is_byte ch ->
  Z.land (Z.shiftr ch 2) 63 = ch / 4 /\ Z.lor (Z.shiftl (Z.land dot 3) 4) (Z.land (Z.shiftr ch 4) 15) = dot mod 4 * 16 + ch / 16 /\
  Z.lor (Z.shiftl (Z.land dot 15) 2) (Z.land (Z.shiftr ch 6) 3) = dot mod 16 * 4 + ch / 64 /\ Z.land ch 63 = ch mod 64 /\
  Z.shiftl (Z.land dot 3) 4 = dot mod 4 * 16 /\ Z.shiftl (Z.land dot 15) 2 = dot mod 16 * 4.
Proof.
  intros dot ch D C. unfold is_byte in *. change 63 with (Z.ones 6). change 15 with (Z.ones 4). change 3 with (Z.ones 2). rewrite !Z.land_ones by lia. rewrite !Z.shiftr_div_pow2, !Z.shiftl_mul_pow2 by lia.
  change (2 ^ 2) with 4. change (2 ^ 4) with 16. change (2 ^ 6) with 64.
  assert (E1 : ch / 4 mod 64 = ch / 4) by (apply Z.mod_small; Z.to_euclidean_division_equations; lia).
  assert (E2 : ch / 16 mod 16 = ch / 16) by (apply Z.mod_small; Z.to_euclidean_division_equations; lia).
  assert (E3 : ch / 64 mod 4 = ch / 64) by (apply Z.mod_small; Z.to_euclidean_division_equations; lia).
  rewrite E1, E2, E3. repeat split.
  - apply (lor_add _ _ 4); [lia|change (2 ^ 4) with 16; Z.to_euclidean_division_equations; lia|exists (dot mod 4); reflexivity].
  - apply (lor_add _ _ 2); [lia|change (2 ^ 2) with 4; Z.to_euclidean_division_equations; lia|exists (dot mod 16); reflexivity].
Qed.
Lemma div_range : forall a, is_byte a -> 0 <= a / 4 < 64 /\ 0 <= a / 16 < 16 /\ 0 <= a / 64 < 4 /\ 0 <= a mod 4 < 4 /\ 0 <= a mod 16 < 16 /\ 0 <= a mod 64 < 64.
Proof. intros a A. unfold is_byte in A. repeat split; Z.to_euclidean_division_equations; lia. Qed.
Lemma by_three : forall (P : list Z -> Prop), P [] -> (forall a, P [a]) -> (forall a b, P [a; b]) -> (forall a b c l, P l -> P (a :: b :: c :: l)) -> forall l, P l.
Proof.
  intros P A B C D. assert (H : forall n l, (length l <= n)%nat -> P l).
  { induction n as [|n IH]; intros l L; [destruct l; [exact A|cbn in L; lia]|]. destruct l as [|a [|b [|c l]]]; auto. apply D, IH. cbn in L. lia. }
  intros l. apply (H (length l)). lia.
Qed.
Lemma be_loop_spec : forall l dot, Forall is_byte l -> is_byte dot -> be_loop l 0 dot = b64 l.
Proof.
  intros l. induction l as [|a|a b|a b c l IH] using by_three; intros dot F D.
  - reflexivity.
  - inversion F as [|? ? A _]; subst. cbn [be_loop b64]. destruct (enc_bits a a A A) as (X1 & _ & _ & _ & X5 & _). rewrite X1, X5. unfold map_encode.
    destruct (div_range a A) as (R1 & _ & _ & R4 & _). rewrite !table_char by lia. unfold b64_digit. destruct (digits3 a 0 0 A) as (Y1 & Y2 & _); [unfold is_byte; lia|unfold is_byte; lia|].
    replace (a * 65536 + 0 * 256 + 0) with (a * 65536) in * by lia. rewrite Y1, Y2. change (0 / 16) with 0. rewrite Z.add_0_r. reflexivity.
  - inversion F as [|? ? A F1]; subst. inversion F1 as [|? ? B _]; subst. cbn [be_loop b64]. destruct (enc_bits a b A B) as (_ & X2 & _). destruct (enc_bits a a A A) as (X1 & _). destruct (enc_bits b b B B) as (_ & _ & _ & _ & _ & X6).
    rewrite X1, X2, X6. unfold map_encode. destruct (div_range a A) as (R1 & _ & _ & R4 & _). destruct (div_range b B) as (_ & R2 & _ & _ & R5 & _). rewrite !table_char by lia. unfold b64_digit.
    destruct (digits3 a b 0 A B) as (Y1 & Y2 & Y3 & _); [unfold is_byte; lia|]. replace (a * 65536 + b * 256 + 0) with (a * 65536 + b * 256) in * by lia. rewrite Y1, Y2, Y3. change (0 / 64) with 0. rewrite Z.add_0_r. reflexivity.
  - inversion F as [|? ? A F1]; subst. inversion F1 as [|? ? B F2]; subst. inversion F2 as [|? ? C F3]; subst. cbn [be_loop b64].
    destruct (enc_bits a b A B) as (_ & X2 & _). destruct (enc_bits a a A A) as (X1 & _). destruct (enc_bits b c B C) as (_ & _ & X3 & X4 & _). rewrite X1, X2, X3, X4. unfold map_encode.
    destruct (div_range a A) as (R1 & _ & _ & R4 & _). destruct (div_range b B) as (_ & R2 & _ & _ & R5 & _). destruct (div_range c C) as (_ & _ & R3 & _ & _ & R6). rewrite !table_char by lia. unfold b64_digit.
    destruct (digits3 a b c A B C) as (Y1 & Y2 & Y3 & Y4). rewrite Y1, Y2, Y3, Y4. rewrite IH by assumption. reflexivity.
Qed.
Lemma dec_bits : forall x y, 0 <= x < 64 -> 0 <= y < 64 ->
  Z.lor (Z.land (Z.shiftl x 2) 255) (Z.land (Z.shiftr y 4) 3) = x * 4 + y / 16 /\
  Z.lor (Z.shiftl (Z.land x 15) 4) (Z.land (Z.shiftr y 2) 15) = x mod 16 * 16 + y / 4 /\
  Z.lor (Z.shiftl (Z.land x 3) 6) y = x mod 4 * 64 + y.
Proof.
  intros x y X Y. change 255 with (Z.ones 8). change 15 with (Z.ones 4). change 3 with (Z.ones 2). rewrite !Z.land_ones by lia. rewrite !Z.shiftr_div_pow2, !Z.shiftl_mul_pow2 by lia.
  change (2 ^ 2) with 4. change (2 ^ 4) with 16. change (2 ^ 6) with 64. change (2 ^ 8) with 256.
  rewrite (Z.mod_small (x * 4)) by lia. rewrite (Z.mod_small (y / 16)) by (Z.to_euclidean_division_equations; lia). rewrite (Z.mod_small (y / 4)) by (Z.to_euclidean_division_equations; lia).
  repeat split.
  - apply (lor_add _ _ 2); [lia|change (2 ^ 2) with 4; Z.to_euclidean_division_equations; lia|exists x; reflexivity].
  - apply (lor_add _ _ 4); [lia|change (2 ^ 4) with 16; Z.to_euclidean_division_equations; lia|exists (x mod 16); reflexivity].
  - apply (lor_add _ _ 6); [lia|change (2 ^ 6) with 64; lia|exists (x mod 4); reflexivity].
Qed.
(** one digit *)
Definition dstep (v : Z) (i : nat) (out : list Z) (part : option Z) : list Z * option Z :=
  let p := match part with Some p => p | None => 0 end in
  match (i mod 4)%nat with
  | 0%nat => (out, Some (Z.land (Z.shiftl v 2) 255))
  | 1%nat => (out ++ [Z.lor p (Z.land (Z.shiftr v 4) 3)], Some (Z.shiftl (Z.land v 15) 4))
  | 2%nat => (out ++ [Z.lor p (Z.land (Z.shiftr v 2) 15)], Some (Z.shiftl (Z.land v 3) 6))
  | _ => (out ++ [Z.lor p v], None)
  end.
Lemma bd_step : forall v l i out part, 0 <= v < 64 -> bd_loop (b64_char v :: l) i out part = let '(o, p) := dstep v i out part in bd_loop l (S i) o p.
Proof.
  intros v l i out part V. cbn [bd_loop]. destruct (decode_char v V) as (A & B & C). rewrite A, B, C. replace (v =? 255) with false by lia. unfold dstep.
  destruct (i mod 4)%nat as [|[|[|k]]]; reflexivity.
Qed.
Lemma mod4s : forall i, (i mod 4 = 0)%nat -> (S i mod 4 = 1 /\ S (S i) mod 4 = 2 /\ S (S (S i)) mod 4 = 3 /\ S (S (S (S i))) mod 4 = 0)%nat.
Proof. intros i I. pose proof (Nat.div_mod i 4 ltac:(lia)) as D. rewrite I in D. rewrite D. repeat split; [replace (S _) with (1 + (i / 4) * 4)%nat by lia|replace (S _) with (2 + (i / 4) * 4)%nat by lia|replace (S _) with (3 + (i / 4) * 4)%nat by lia|replace (S _) with (0 + (i / 4 + 1) * 4)%nat by lia]; rewrite Nat.mod_add by lia; reflexivity. Qed.
Lemma dm : forall q r n, 0 <= r < n -> (q * n + r) / n = q /\ (q * n + r) mod n = r.
Proof. intros q r n R. split; [symmetry; apply Z.div_unique with r; lia|symmetry; apply Z.mod_unique with q; lia]. Qed.
Definition rest_part (l : list Z) : option Z := if (length l mod 3 =? 0)%nat then None else Some 0.
Lemma bd_loop_spec : forall l i out, Forall is_byte l -> (i mod 4 = 0)%nat -> bd_loop (b64 l) i out None = (true, out ++ l, rest_part l).
Proof.
  intros l. induction l as [|a|a b|a b c l IH] using by_three; intros i out F I; destruct (mod4s i I) as (I1 & I2 & I3 & I4).
  - cbn [b64 bd_loop]. rewrite app_nil_r. reflexivity.
  - inversion F as [|? ? A _]; subst. cbn [b64]. unfold b64_digit. destruct (digits3 a 0 0 A) as (Y1 & Y2 & _); [unfold is_byte; lia|unfold is_byte; lia|].
    replace (a * 65536 + 0 * 256 + 0) with (a * 65536) in * by lia. rewrite Y1, Y2. change (0 / 16) with 0. rewrite Z.add_0_r. destruct (div_range a A) as (R1 & _ & _ & R4 & _).
    rewrite bd_step by lia. unfold dstep. rewrite I. rewrite bd_step by lia. unfold dstep. rewrite I1. cbn [bd_loop]. change (61 =? 61) with true. cbv iota.
    destruct (dec_bits (a / 4) (a mod 4 * 16) R1 ltac:(lia)) as (Z1 & _). rewrite Z1. rewrite Z.div_mul by lia.
    replace (a / 4 * 4 + a mod 4) with a by (pose proof (Z.div_mod a 4); lia). unfold rest_part. cbn [length Nat.modulo]. f_equal.
    change 15 with (Z.ones 4). rewrite Z.land_ones by lia. change (2 ^ 4) with 16. rewrite Z.mod_mul by lia. reflexivity.
  - inversion F as [|? ? A F1]; subst. inversion F1 as [|? ? B _]; subst. cbn [b64]. unfold b64_digit. destruct (digits3 a b 0 A B) as (Y1 & Y2 & Y3 & _); [unfold is_byte; lia|].
    replace (a * 65536 + b * 256 + 0) with (a * 65536 + b * 256) in * by lia. rewrite Y1, Y2, Y3. change (0 / 64) with 0. rewrite Z.add_0_r. destruct (div_range a A) as (R1 & _ & _ & R4 & _). destruct (div_range b B) as (_ & R2 & _ & _ & R5 & _).
    rewrite bd_step by lia. unfold dstep. rewrite I. rewrite bd_step by lia. unfold dstep. rewrite I1. rewrite bd_step by lia. unfold dstep. rewrite I2. cbn [bd_loop]. change (61 =? 61) with true. cbv iota.
    destruct (dec_bits (a / 4) (a mod 4 * 16 + b / 16) R1 ltac:(lia)) as (Z1 & _). rewrite Z1.
    destruct (dec_bits (a mod 4 * 16 + b / 16) (b mod 16 * 4) ltac:(lia) ltac:(lia)) as (_ & Z2 & _). rewrite Z2.
    rewrite (proj1 (dm (a mod 4) (b / 16) 16 ltac:(lia))).
    rewrite (proj2 (dm (a mod 4) (b / 16) 16 ltac:(lia))). rewrite Z.div_mul by lia.
    replace (a / 4 * 4 + a mod 4) with a by (pose proof (Z.div_mod a 4); lia). replace (b / 16 * 16 + b mod 16) with b by (pose proof (Z.div_mod b 16); lia).
    unfold rest_part. cbn [length Nat.modulo]. rewrite <- app_assoc. f_equal.
    change 3 with (Z.ones 2). rewrite Z.land_ones by lia. change (2 ^ 2) with 4. rewrite Z.mod_mul by lia. reflexivity.
  - inversion F as [|? ? A F1]; subst. inversion F1 as [|? ? B F2]; subst. inversion F2 as [|? ? C F3]; subst. cbn [b64]. unfold b64_digit. destruct (digits3 a b c A B C) as (Y1 & Y2 & Y3 & Y4).
    rewrite Y1, Y2, Y3, Y4. destruct (div_range a A) as (R1 & _ & _ & R4 & _). destruct (div_range b B) as (_ & R2 & _ & _ & R5 & _). destruct (div_range c C) as (_ & _ & R3 & _ & _ & R6).
    rewrite bd_step by lia. unfold dstep. rewrite I. rewrite bd_step by lia. unfold dstep. rewrite I1. rewrite bd_step by lia. unfold dstep. rewrite I2. rewrite bd_step by lia. unfold dstep. rewrite I3.
    destruct (dec_bits (a / 4) (a mod 4 * 16 + b / 16) R1 ltac:(lia)) as (Z1 & _). rewrite Z1.
    destruct (dec_bits (a mod 4 * 16 + b / 16) (b mod 16 * 4 + c / 64) ltac:(lia) ltac:(lia)) as (_ & Z2 & _). rewrite Z2.
    destruct (dec_bits (b mod 16 * 4 + c / 64) (c mod 64) ltac:(lia) ltac:(lia)) as (_ & _ & Z3). rewrite Z3.
    rewrite (proj1 (dm (a mod 4) (b / 16) 16 ltac:(lia))).
    rewrite (proj2 (dm (a mod 4) (b / 16) 16 ltac:(lia))).
    rewrite (proj1 (dm (b mod 16) (c / 64) 4 ltac:(lia))).
    rewrite (proj2 (dm (b mod 16) (c / 64) 4 ltac:(lia))).
    replace (a / 4 * 4 + a mod 4) with a by (pose proof (Z.div_mod a 4); lia). replace (b / 16 * 16 + b mod 16) with b by (pose proof (Z.div_mod b 16); lia). replace (c / 64 * 64 + c mod 64) with c by (pose proof (Z.div_mod c 64); lia).
    rewrite IH by assumption. rewrite <- !app_assoc. unfold rest_part. cbn [length app]. f_equal. replace (S (S (S (length l)))) with (length l + 1 * 3)%nat by lia. rewrite Nat.mod_add by lia. reflexivity.
Qed.
Lemma b64_length : forall l, (length (b64 l) = 4 * ((length l + 2) / 3))%nat.
Proof.
  intros l. induction l as [|a|a b|a b c l IH] using by_three; try reflexivity. cbn [b64 length]. rewrite IH. replace (S (S (S (length l))) + 2)%nat with (length l + 2 + 1 * 3)%nat by lia. rewrite Nat.div_add by lia. lia.
Qed.
