(** Proofs about the bit stream. *)
From Verif Require Import Base S_bits M_bits.
From Coq Require Import ZifyBool ZifyNat.
Ltac Zify.zify_post_hook ::= Z.div_mod_to_equations.

(** *** updating a byte *)
Lemma upd_some l k x : (k < length l)%nat -> exists l', upd l k x = Some l'.
Proof.
  revert k; induction l as [|y l IH]; intros k Hk; cbn [length] in *; [lia|].
  destruct k as [|k]; cbn [upd]; [eauto|].
  destruct (IH k ltac:(lia)) as [l' ->]. eauto.
Qed.

Lemma upd_spec l k x l' : upd l k x = Some l' ->
  (k < length l)%nat /\ length l' = length l /\ (forall j, nth j l' 0 = if Nat.eqb j k then x else nth j l 0).
Proof.
  revert k l'; induction l as [|y l IH]; intros k l' H; cbn [upd] in H; [discriminate|].
  destruct k as [|k].
  - injection H as <-. cbn [length]. repeat split; try lia. intros [|j]; reflexivity.
  - destruct (upd l k x) as [r|] eqn:E; [|discriminate]. injection H as <-.
    destruct (IH k r E) as (H1 & H2 & H3). cbn [length]. repeat split; try lia.
    intros [|j]; [reflexivity|]. cbn [nth]. rewrite H3. reflexivity.
Qed.

Lemma upd_byte l k x l' : upd l k x = Some l' -> is_byte x -> Forall is_byte l -> Forall is_byte l'.
Proof.
  revert k l'; induction l as [|y l IH]; intros k l' H Hx Hl; cbn [upd] in H; [discriminate|].
  inversion Hl; subst. destruct k as [|k].
  - injection H as <-. constructor; assumption.
  - destruct (upd l k x) as [r|] eqn:E; [|discriminate]. injection H as <-.
    constructor; [assumption|]. apply (IH k r E); assumption.
Qed.

(** *** bits of a buffer, most significant first *)
Definition holds (d : list Z) (p : nat) (bs : list bool) : Prop :=
  forall j, (j < length bs)%nat -> bitat d (p + j) = nth j bs false.

Lemma holds_app d p b1 b2 : holds d p (b1 ++ b2) <-> holds d p b1 /\ holds d (p + length b1) b2.
Proof.
  unfold holds. split.
  - intros H. split; intros j Hj.
    + rewrite H by (rewrite app_length; lia). rewrite app_nth1 by lia. reflexivity.
    + rewrite <- Nat.add_assoc. rewrite H by (rewrite app_length; lia).
      rewrite app_nth2 by lia. f_equal; lia.
  - intros [H1 H2] j Hj. rewrite app_length in Hj.
    destruct (Nat.ltb_spec j (length b1)).
    + rewrite app_nth1 by lia. apply H1; lia.
    + rewrite app_nth2 by lia. replace (p + j)%nat with (p + length b1 + (j - length b1))%nat by lia.
      apply H2; lia.
Qed.

(** n bits of v, most significant first *)
Fixpoint tobits (n : nat) (v : Z) : list bool :=
  match n with O => [] | S n' => tobits n' (v / 2) ++ [Z.odd v] end.

Lemma tobits_length n v : length (tobits n v) = n.
Proof. revert v; induction n as [|n IH]; intros v; cbn [tobits]; [reflexivity|]. rewrite app_length, IH; cbn; lia. Qed.

Lemma tobits_nth n v j : (j < n)%nat -> nth j (tobits n v) false = Z.testbit v (Z.of_nat n - 1 - Z.of_nat j).
Proof.
  revert v j; induction n as [|n IH]; intros v j Hj; [lia|]. cbn [tobits].
  destruct (Nat.eq_dec j n) as [->|Hne].
  - rewrite app_nth2; rewrite tobits_length; [|lia]. rewrite Nat.sub_diag. cbn [nth].
    replace (Z.of_nat (S n) - 1 - Z.of_nat n) with 0 by lia. symmetry; apply Z.bit0_odd.
  - rewrite app_nth1 by (rewrite tobits_length; lia). rewrite IH by lia.
    rewrite <- Z.div2_div, Z.div2_spec, Z.shiftr_spec by lia. f_equal; lia.
Qed.

Lemma tobits_mod n v : tobits n (v mod 2 ^ Z.of_nat n) = tobits n v.
Proof.
  apply nth_ext with (d := false) (d' := false); [rewrite !tobits_length; reflexivity|].
  intros j Hj. rewrite tobits_length in Hj. rewrite !tobits_nth by lia.
  apply Z.mod_pow2_bits_low. lia.
Qed.

(** value of n bits starting at p *)
Fixpoint bval (d : list Z) (p n : nat) : Z :=
  match n with O => 0 | S n' => 2 * bval d p n' + Z.b2z (bitat d (p + n')) end.

Lemma bval_range d p n : 0 <= bval d p n < 2 ^ Z.of_nat n.
Proof.
  induction n as [|n IH]; cbn [bval]; [cbn; lia|].
  rewrite Nat2Z.inj_succ, Z.pow_succ_r by lia. destruct (bitat d (p + n)); cbn [Z.b2z]; lia.
Qed.

Lemma bval_split d p a b : bval d p (a + b) = bval d p a * 2 ^ Z.of_nat b + bval d (p + a) b.
Proof.
  induction b as [|b IH].
  - rewrite Nat.add_0_r. cbn. lia.
  - rewrite Nat.add_succ_r. cbn [bval]. rewrite IH, Nat2Z.inj_succ, Z.pow_succ_r by lia.
    rewrite Nat.add_assoc. lia.
Qed.

Lemma bval_holds d p n v : holds d p (tobits n v) -> bval d p n = v mod 2 ^ Z.of_nat n.
Proof.
  revert v; induction n as [|n IH]; intros v H; [cbn; rewrite Z.mod_1_r; reflexivity|].
  cbn [tobits] in H. apply holds_app in H. destruct H as [H1 H2].
  cbn [bval]. rewrite (IH _ H1). rewrite tobits_length in H2.
  specialize (H2 0%nat ltac:(cbn; lia)). rewrite Nat.add_0_r in H2. rewrite H2. cbn [nth].
  rewrite Nat2Z.inj_succ, Z.pow_succ_r by lia.
  rewrite Z.rem_mul_r; [|lia|apply Z.pow_pos_nonneg; lia].
  rewrite Zmod_odd. destruct (Z.odd v); cbn [Z.b2z]; lia.
Qed.

(** a whole byte *)
Lemma byte_bits b : is_byte b -> forall d q, nth q d 0 = b -> bval d (8 * q) 8 = b.
Proof.
  intros Hb d q Hq.
  transitivity (b mod 2 ^ Z.of_nat 8).
  2:{ change (2 ^ Z.of_nat 8) with 256. unfold is_byte in Hb. apply Z.mod_small; lia. }
  apply bval_holds. intros j Hj. rewrite tobits_length in Hj. rewrite tobits_nth by lia.
  unfold bitat.
  replace ((8 * q + j) / 8)%nat with q by lia.
  replace ((8 * q + j) mod 8)%nat with j by lia. rewrite Hq. f_equal.
Qed.

Lemma byte_top b i d q : is_byte b -> nth q d 0 = b -> (i <= 8)%nat ->
  Z.shiftr b (8 - Z.of_nat i) = bval d (8 * q) i.
Proof.
  intros Hb Hq Hi. rewrite Z.shiftr_div_pow2 by lia.
  rewrite <- (byte_bits b Hb d q Hq) at 1.
  replace 8%nat with (i + (8 - i))%nat at 2 by lia. rewrite bval_split.
  replace (8 - Z.of_nat i) with (Z.of_nat (8 - i)) by lia.
  assert (Hr := bval_range d (8 * q + i) (8 - i)).
  rewrite Z.div_add_l by (apply Z.pow_nonzero; lia). rewrite Z.div_small by lia. lia.
Qed.

Lemma byte_low b i d q : is_byte b -> nth q d 0 = b -> (i <= 8)%nat ->
  Z.land b (Z.shiftr 255 (Z.of_nat i)) = bval d (8 * q + i) (8 - i).
Proof.
  intros Hb Hq Hi.
  replace (Z.shiftr 255 (Z.of_nat i)) with (Z.ones (Z.of_nat (8 - i))).
  2:{ do 9 (destruct i as [|i]; [reflexivity|]); lia. }
  rewrite Z.land_ones by lia.
  rewrite <- (byte_bits b Hb d q Hq) at 1.
  replace 8%nat with (i + (8 - i))%nat at 2 by lia. rewrite bval_split.
  assert (Hr := bval_range d (8 * q + i) (8 - i)).
  rewrite Z.add_comm, Z.mod_add by (apply Z.pow_nonzero; lia). apply Z.mod_small; lia.
Qed.

Lemma testbit_above b n k : 0 <= b < 2 ^ n -> 0 <= n <= k -> Z.testbit b k = false.
Proof.
  intros Hb Hk. rewrite <- (Z.mod_small b (2 ^ n)) by lia. apply Z.mod_pow2_bits_high. lia.
Qed.

Lemma lor_shift a b n : 0 <= n -> 0 <= b < 2 ^ n -> Z.lor (Z.shiftl a n) b = a * 2 ^ n + b.
Proof.
  intros Hn Hb.
  assert (H : Z.land (Z.shiftl a n) b = 0).
  { apply Z.bits_inj'; intros k Hk. rewrite Z.land_spec, Z.bits_0.
    destruct (Z.ltb_spec k n); [rewrite Z.shiftl_spec_low by lia; reflexivity|].
    rewrite (testbit_above b n k) by lia. apply andb_false_r. }
  rewrite <- Z.lxor_lor, <- Z.add_nocarry_lxor by assumption.
  rewrite Z.shiftl_mul_pow2 by lia. reflexivity.
Qed.

(** *** reading *)
Lemma ld_some d k : (k < length d)%nat -> ld d k = Some (nth k d 0).
Proof. intros H. unfold ld. apply nth_error_nth'. assumption. Qed.

Lemma get_loop_spec fuel d p k cur inc :
  Forall is_byte d -> (p + k = 8 * cur)%nat -> (k + inc <= 64)%nat ->
  (inc <= 8 * fuel)%nat -> (p + k + inc <= 8 * length d)%nat ->
  get_loop fuel d cur (bval d p k) inc = Some (bval d p (k + inc)).
Proof.
  intros Hd. revert k cur inc; induction fuel as [|fuel IH]; intros k cur inc Hc Hk Hf Hl.
  - assert (inc = 0%nat) by lia. subst. rewrite Nat.add_0_r. reflexivity.
  - destruct inc as [|inc']; [rewrite Nat.add_0_r; reflexivity|].
    cbn [get_loop]. set (inc := S inc') in *.
    assert (Hcur : (cur < length d)%nat) by lia.
    rewrite ld_some by assumption.
    assert (Hb : is_byte (nth cur d 0)).
    { rewrite Forall_forall in Hd. apply Hd. apply nth_In. assumption. }
    assert (Hr := bval_range d p k).
    assert (Hw : forall i, (i <= 8)%nat -> (i <= inc)%nat ->
              to_u 64 (Z.shiftl (bval d p k) (Z.of_nat i)) = Z.shiftl (bval d p k) (Z.of_nat i)).
    { intros i Hi Hi2. apply to_u_small. rewrite Z.shiftl_mul_pow2 by lia. split; [nia|].
      apply Z.lt_le_trans with (2 ^ Z.of_nat k * 2 ^ Z.of_nat i).
      - apply Z.mul_lt_mono_pos_r; [apply Z.pow_pos_nonneg; lia|lia].
      - rewrite <- Z.pow_add_r by lia. apply Z.pow_le_mono_r; lia. }
    destruct (Nat.leb_spec 8 inc).
    + change 8 with (Z.of_nat 8) at 1. rewrite Hw by lia.
      rewrite lor_shift; [|lia|unfold is_byte in Hb; cbn; lia].
      replace (bval d p k * 2 ^ Z.of_nat 8 + nth cur d 0) with (bval d p (k + 8)).
      * rewrite (IH (k + 8)%nat (S cur) (inc - 8)%nat) by lia. f_equal. f_equal. lia.
      * rewrite bval_split. f_equal. rewrite Hc. apply byte_bits; [assumption|reflexivity].
    + rewrite Hw by lia.
      rewrite (byte_top _ inc d cur Hb eq_refl) by lia.
      assert (Hr2 := bval_range d (8 * cur) inc).
      rewrite lor_shift by lia.
      replace (8 * cur)%nat with (p + k)%nat by lia. rewrite <- bval_split.
      destruct fuel; reflexivity.
Qed.

Lemma bget_spec s n : Forall is_byte (bdat s) -> (1 <= n <= 64)%nat ->
  (bpos s + n <= 8 * length (bdat s))%nat ->
  bget s n = Some (bval (bdat s) (bpos s) n, mkbs (bdat s) (bpos s + n)).
Proof.
  intros Hd Hn Hl. unfold bget. destruct s as [d p]; cbn [bdat bpos] in *.
  assert (Hq : (p / 8 < length d)%nat) by lia.
  rewrite ld_some by assumption.
  assert (Hb : is_byte (nth (p / 8) d 0)).
  { rewrite Forall_forall in Hd. apply Hd. apply nth_In. assumption. }
  set (r := (p mod 8)%nat). set (q := (p / 8)%nat) in *.
  assert (Hpq : p = (8 * q + r)%nat) by (unfold q, r; lia).
  assert (Hr : (r < 8)%nat) by (unfold r; lia).
  assert (Hu : (if Nat.eqb (8 - r) 8 then nth q d 0 else
            Z.land (nth q d 0) (Z.shiftr 255 (8 - Z.of_nat (8 - r)))) = bval d p (8 - r)).
  { destruct (Nat.eqb_spec (8 - r) 8).
    - assert (r = 0%nat) by lia. rewrite Hpq, H, Nat.add_0_r, Nat.sub_0_r.
      symmetry. apply byte_bits; [assumption|reflexivity].
    - replace (8 - Z.of_nat (8 - r)) with (Z.of_nat r) by lia.
      rewrite (byte_low _ r d q Hb eq_refl) by lia. rewrite <- Hpq. reflexivity. }
  rewrite Hu.
  destruct (Nat.ltb_spec (8 - r) n).
  - rewrite (get_loop_spec 9 d p (8 - r) (S q) (n - (8 - r))); auto; try lia.
    f_equal. f_equal. f_equal. lia.
  - f_equal. f_equal. rewrite Z.shiftr_div_pow2 by lia.
    replace (8 - r)%nat with (n + (8 - r - n))%nat at 1 by lia.
    rewrite bval_split. assert (Hr2 := bval_range d (p + n) (8 - r - n)).
    rewrite Z.div_add_l by (apply Z.pow_nonzero; lia). rewrite Z.div_small by lia. lia.
Qed.

(** *** writing *)
Lemma put_loop_spec fuel d pos inw off :
  Forall is_byte d -> (pos mod 8 = 0)%nat -> 0 <= inw < 2 ^ 64 -> (off <= 64)%nat ->
  (off <= 8 * fuel)%nat -> (pos + off <= 8 * length d)%nat ->
  exists d', put_loop fuel d pos inw off = Some (d', (pos + off)%nat)
    /\ length d' = length d /\ Forall is_byte d'
    /\ (forall i, (i < pos)%nat -> bitat d' i = bitat d i)
    /\ (forall j, (j < off)%nat -> bitat d' (pos + j) = Z.testbit inw (63 - Z.of_nat j))
    /\ (forall k, (pos + off <= 8 * k)%nat -> nth k d' 0 = nth k d 0).
Proof.
  revert d pos inw off; induction fuel as [|fuel IH]; intros d pos inw off Hd Hp Hi Ho Hf Hl.
  - assert (off = 0%nat) by lia; subst. exists d. cbn. rewrite Nat.add_0_r.
    repeat split; auto. intros j Hj; lia.
  - destruct off as [|off'].
    + exists d. cbn. rewrite Nat.add_0_r. repeat split; auto. intros j Hj; lia.
    + cbn [put_loop]. set (off := S off') in *.
      destruct (upd_some d (pos / 8) (Z.shiftr inw 56)) as [d1 E1]; [lia|].
      rewrite E1. destruct (upd_spec _ _ _ _ E1) as (U1 & U2 & U3).
      assert (Hx : is_byte (Z.shiftr inw 56)).
      { unfold is_byte. rewrite Z.shiftr_div_pow2 by lia. change (2 ^ 64) with (2 ^ 56 * 256) in Hi.
        split; [apply Z.div_pos; lia|apply Z.div_lt_upper_bound; lia]. }
      assert (Hd1 := upd_byte _ _ _ _ E1 Hx Hd).
      assert (Hold : forall i, (i < pos)%nat -> bitat d1 i = bitat d i).
      { intros i Hii. unfold bitat. rewrite U3. destruct (Nat.eqb_spec (i / 8) (pos / 8)); [lia|reflexivity]. }
      assert (Hnew : forall j, (j < 8)%nat -> bitat d1 (pos + j) = Z.testbit inw (63 - Z.of_nat j)).
      { intros j Hj. unfold bitat. rewrite U3.
        replace ((pos + j) / 8)%nat with (pos / 8)%nat by lia. rewrite Nat.eqb_refl.
        replace ((pos + j) mod 8)%nat with j by lia.
        rewrite Z.shiftr_spec by lia. f_equal. lia. }
      assert (Hrest : forall k, (pos + 8 <= 8 * k)%nat -> nth k d1 0 = nth k d 0).
      { intros k Hk. rewrite U3. destruct (Nat.eqb_spec k (pos / 8)); [lia|reflexivity]. }
      destruct (Nat.leb_spec 8 off).
      * replace (pos + Nat.min 8 off)%nat with (pos + 8)%nat by lia.
        destruct (IH d1 (pos + 8)%nat (to_u 64 (Z.shiftl inw 8)) (off - 8)%nat) as (d' & R1 & R2 & R3 & R4 & R5 & R6); auto; try lia.
        { unfold to_u. apply Z.mod_pos_bound. lia. }
        exists d'. rewrite R1. split; [f_equal; f_equal; lia|]. split; [lia|]. split; [assumption|].
        split; [intros i Hii; rewrite R4 by lia; apply Hold; lia|]. split.
        { intros j Hj. destruct (Nat.ltb_spec j 8).
          - rewrite R4 by lia. apply Hnew; lia.
          - replace (pos + j)%nat with (pos + 8 + (j - 8))%nat by lia. rewrite R5 by lia.
            unfold to_u. rewrite Z.mod_pow2_bits_low by lia. rewrite Z.shiftl_spec by lia.
            f_equal. lia. }
        { intros k Hk. rewrite R6 by lia. apply Hrest. lia. }
      * replace (pos + Nat.min 8 off)%nat with (pos + off)%nat by lia.
        replace (off - 8)%nat with 0%nat by lia. exists d1.
        split; [destruct fuel; reflexivity|]. split; [lia|]. split; [assumption|].
        split; [assumption|]. split; [intros j Hj; apply Hnew; lia|].
        intros k Hk. apply Hrest. lia.
Qed.

(** [s'] is [s] with the bits [bs] written at its position *)
Record wr (s s' : bstream) (bs : list bool) : Prop := mkwr {
  wr_len : length (bdat s') = length (bdat s);
  wr_pos : bpos s' = (bpos s + length bs)%nat;
  wr_byte : Forall is_byte (bdat s');
  wr_old : forall i, (i < bpos s)%nat -> bitat (bdat s') i = bitat (bdat s) i;
  wr_new : holds (bdat s') (bpos s) bs;
  wr_rest : forall k, (bpos s' <= 8 * k)%nat -> nth k (bdat s') 0 = nth k (bdat s) 0 }.

Lemma wr_nil s : Forall is_byte (bdat s) -> wr s s [].
Proof. intros H. split; auto; cbn; try lia. intros j Hj; cbn in Hj; lia. Qed.

Lemma wr_app s s1 s2 b1 b2 : wr s s1 b1 -> wr s1 s2 b2 -> wr s s2 (b1 ++ b2).
Proof.
  intros [A1 A2 A3 A4 A5 A6] [B1 B2 B3 B4 B5 B6]. split.
  - lia.
  - rewrite app_length; lia.
  - assumption.
  - intros i Hi. rewrite B4 by lia. apply A4; lia.
  - apply holds_app. split.
    + intros j Hj. rewrite B4 by lia. apply A5; lia.
    + rewrite <- A2. assumption.
  - intros k Hk. rewrite B6 by lia. apply A6; lia.
Qed.

Lemma wr_holds_before s s' bs p b : wr s s' bs -> holds (bdat s) p b -> (p + length b <= bpos s)%nat ->
  holds (bdat s') p b.
Proof. intros W H Hp j Hj. rewrite (wr_old _ _ _ W) by lia. apply H; lia. Qed.

Lemma bput_spec s v n : Forall is_byte (bdat s) -> (n <= 64)%nat ->
  (bpos s + n <= 8 * length (bdat s))%nat ->
  exists s', bput s v n = Some s' /\ wr s s' (tobits n v).
Proof.
  intros Hd Hn Hl. unfold bput. destruct n as [|n'].
  { exists s. split; [reflexivity|]. apply wr_nil; assumption. }
  set (n := S n') in *.
  set (inw := to_u 64 (Z.shiftl (to_u 64 v) (64 - Z.of_nat n))).
  assert (Hi : 0 <= inw < 2 ^ 64) by (apply Z.mod_pos_bound; lia).
  assert (Hbit : forall j, (j < n)%nat -> Z.testbit inw (63 - Z.of_nat j) = Z.testbit v (Z.of_nat n - 1 - Z.of_nat j)).
  { intros j Hj. unfold inw, to_u. rewrite Z.mod_pow2_bits_low by lia.
    rewrite Z.shiftl_spec by lia. rewrite Z.mod_pow2_bits_low by lia. f_equal. lia. }
  assert (Hlow : forall k, k < 64 - Z.of_nat n -> Z.testbit inw k = false).
  { intros k Hk. unfold inw, to_u. destruct (Z.ltb_spec k 0); [apply Z.testbit_neg_r; lia|].
    rewrite Z.mod_pow2_bits_low by lia. apply Z.shiftl_spec_low. lia. }
  destruct s as [d p]; cbn [bdat bpos] in *.
  destruct (p mod 8)%nat as [|lb] eqn:Em.
  - destruct (put_loop_spec 9 d p inw n Hd Em Hi Hn ltac:(lia) Hl) as (d' & R1 & R2 & R3 & R4 & R5 & R6).
    rewrite R1. eexists; split; [reflexivity|]. split; cbn [bdat bpos]; rewrite ?tobits_length; auto.
    intros j Hj. rewrite tobits_length in Hj. rewrite R5, tobits_nth by lia. apply Hbit; lia.
  - set (lastbit := S lb) in *. set (space := (8 - lastbit)%nat).
    assert (Hlb : (1 <= lastbit < 8)%nat) by (unfold lastbit in *; lia).
    rewrite ld_some by lia.
    set (old := nth (p / 8) d 0).
    assert (Hb : is_byte old).
    { rewrite Forall_forall in Hd. apply Hd. apply nth_In. lia. }
    set (c := Z.lor _ _).
    assert (Hc : forall j, (j < 8)%nat -> Z.testbit c (7 - Z.of_nat j) =
        if Nat.ltb j lastbit then Z.testbit old (7 - Z.of_nat j)
        else Z.testbit inw (63 - (Z.of_nat j - Z.of_nat lastbit))).
    { intros j Hj. unfold c. rewrite Z.lor_spec, !Z.land_spec.
      unfold to_u. rewrite Z.mod_pow2_bits_low by lia.
      rewrite (Z.shiftl_spec 255) by lia. rewrite (Z.shiftr_spec inw) by lia.
      rewrite (Z.shiftr_spec 255) by lia.
      change 255 with (Z.ones 8).
      destruct (Nat.ltb_spec j lastbit).
      - rewrite Z.ones_spec_low by lia. rewrite Z.ones_spec_high by lia.
        rewrite andb_true_r, andb_false_r, orb_false_r. reflexivity.
      - rewrite (Z.testbit_neg_r (Z.ones 8)) by lia. rewrite Z.ones_spec_low by lia.
        rewrite andb_false_r, andb_true_r, orb_false_l. f_equal. lia. }
    assert (Hcb : is_byte c).
    { assert (Hc0 : 0 <= c).
      { unfold c. apply Z.lor_nonneg. split; apply Z.land_nonneg; [left; unfold is_byte in Hb; lia|].
        right. apply Z.shiftr_nonneg. lia. }
      split; [assumption|].
      assert (Hh : c = c mod 2 ^ 8); [|rewrite Hh; apply Z.mod_pos_bound; lia].
      apply Z.bits_inj'. intros k Hk. destruct (Z.ltb_spec k 8); [rewrite Z.mod_pow2_bits_low by lia; reflexivity|].
      rewrite Z.mod_pow2_bits_high by lia. unfold c. rewrite Z.lor_spec, !Z.land_spec.
      rewrite (testbit_above old 8 k) by (unfold is_byte in Hb; cbn; lia).
      rewrite (Z.shiftr_spec 255) by lia.
      rewrite (testbit_above 255 8 (k + Z.of_nat lastbit)) by (cbn; lia).
      rewrite andb_false_r. reflexivity. }
    destruct (upd_some d (p / 8) c) as [d1 E1]; [lia|].
    rewrite E1. destruct (upd_spec _ _ _ _ E1) as (U1 & U2 & U3).
    assert (Hd1 := upd_byte _ _ _ _ E1 Hcb Hd).
    assert (Hold : forall i, (i < p)%nat -> bitat d1 i = bitat d i).
    { intros i Hii. unfold bitat. rewrite U3. destruct (Nat.eqb_spec (i / 8) (p / 8)) as [He|He]; [|reflexivity].
      rewrite Hc by lia. destruct (Nat.ltb_spec (i mod 8) lastbit); [|lia].
      unfold old. rewrite He. reflexivity. }
    assert (Hnew : forall j, (j < space)%nat -> bitat d1 (p + j) = Z.testbit inw (63 - Z.of_nat j)).
    { intros j Hj. unfold bitat. rewrite U3. unfold space in *.
      replace ((p + j) / 8)%nat with (p / 8)%nat by lia. rewrite Nat.eqb_refl.
      replace ((p + j) mod 8)%nat with (lastbit + j)%nat by lia. rewrite Hc by lia.
      destruct (Nat.ltb_spec (lastbit + j) lastbit); [lia|]. f_equal. lia. }
    assert (Hrest : forall k, (p < 8 * k)%nat -> nth k d1 0 = nth k d 0).
    { intros k Hk. rewrite U3. destruct (Nat.eqb_spec k (p / 8)); [lia|reflexivity]. }
    destruct (Nat.leb_spec space n).
    + replace (p + Nat.min n space)%nat with (p + space)%nat by lia.
      destruct (put_loop_spec 9 d1 (p + space)%nat (to_u 64 (Z.shiftl inw (Z.of_nat space))) (n - space)%nat)
        as (d' & R1 & R2 & R3 & R4 & R5 & R6); auto; try (unfold space in *; lia).
      { unfold to_u. apply Z.mod_pos_bound. lia. }
      rewrite R1. eexists; split; [reflexivity|]. split; cbn [bdat bpos]; rewrite ?tobits_length; try lia; auto.
      * intros i Hii. rewrite R4 by lia. apply Hold; lia.
      * intros j Hj. rewrite tobits_length in Hj. rewrite tobits_nth by lia. rewrite <- Hbit by lia.
        destruct (Nat.ltb_spec j space).
        -- rewrite R4 by lia. apply Hnew; lia.
        -- replace (p + j)%nat with (p + space + (j - space))%nat by lia. rewrite R5 by lia.
           unfold to_u. rewrite Z.mod_pow2_bits_low by lia. rewrite Z.shiftl_spec by lia. f_equal. lia.
      * intros k Hk. rewrite R6 by lia. apply Hrest. lia.
    + replace (p + Nat.min n space)%nat with (p + n)%nat by lia.
      replace (n - space)%nat with 0%nat by lia. cbn [put_loop].
      eexists; split; [reflexivity|]. split; cbn [bdat bpos]; rewrite ?tobits_length; try lia; auto.
      * intros j Hj. rewrite tobits_length in Hj. rewrite tobits_nth by lia. rewrite <- Hbit by lia.
        apply Hnew; lia.
      * intros k Hk. apply Hrest. lia.
Qed.
