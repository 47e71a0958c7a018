(** Proofs about the integer encoders on the bit stream. *)
From Verif Require Import Base S_bits M_bits L_bits.
From Coq Require Import ZifyBool ZifyNat.

(** [s'] is [s] advanced over the bits [bs], which are present in the buffer *)
Record rd (s s' : bstream) (bs : list bool) : Prop := mkrd {
  rd_byte : Forall is_byte (bdat s);
  rd_holds : holds (bdat s) (bpos s) bs;
  rd_cap : (bpos s + length bs <= 8 * length (bdat s))%nat;
  rd_dat : bdat s' = bdat s;
  rd_pos : bpos s' = (bpos s + length bs)%nat }.

Lemma rd_app s s2 b1 b2 : rd s s2 (b1 ++ b2) -> exists s1, rd s s1 b1 /\ rd s1 s2 b2.
Proof.
  intros [A1 A2 A3 A4 A5]. apply holds_app in A2. rewrite app_length in *.
  exists (mkbs (bdat s) (bpos s + length b1)). split; split; cbn [bdat bpos]; auto; try tauto; try lia.
Qed.

Lemma bget_rd s s' n v : rd s s' (tobits n v) -> (1 <= n <= 64)%nat ->
  bget s n = Some (v mod 2 ^ Z.of_nat n, s').
Proof.
  intros [A1 A2 A3 A4 A5] Hn. rewrite tobits_length in *.
  rewrite bget_spec by (auto; lia). rewrite (bval_holds _ _ _ _ A2).
  destruct s' as [d p]; cbn in *; subst. reflexivity.
Qed.

Lemma bget_rd_small s s' n v : rd s s' (tobits n v) -> (1 <= n <= 64)%nat ->
  0 <= v < 2 ^ Z.of_nat n -> bget s n = Some (v, s').
Proof. intros H Hn Hv. rewrite (bget_rd s s' n v H Hn). rewrite Z.mod_small by lia. reflexivity. Qed.

(** what was written can be read *)
Lemma wr_rd s s' bs : wr s s' bs -> (bpos s + length bs <= 8 * length (bdat s))%nat ->
  rd (mkbs (bdat s') (bpos s)) s' bs.
Proof. intros W H. split; cbn [bdat bpos]; try apply W; [rewrite (wr_len _ _ _ W); assumption|reflexivity]. Qed.

Lemma tobits_split a b x y : 0 <= y < 2 ^ Z.of_nat b ->
  tobits (a + b) (x * 2 ^ Z.of_nat b + y) = tobits a x ++ tobits b y.
Proof.
  revert y; induction b as [|b IH]; intros y Hy.
  - cbn [tobits]. rewrite app_nil_r, Nat.add_0_r. cbn [Z.of_nat] in *. rewrite Z.pow_0_r in *. f_equal. lia.
  - rewrite Nat.add_succ_r. cbn [tobits]. rewrite Nat2Z.inj_succ, Z.pow_succ_r in * by lia.
    replace ((x * (2 * 2 ^ Z.of_nat b) + y) / 2) with (x * 2 ^ Z.of_nat b + y / 2).
    + rewrite IH by (split; [apply Z.div_pos; lia|apply Z.div_lt_upper_bound; lia]).
      rewrite app_assoc. f_equal. f_equal.
      replace (x * (2 * 2 ^ Z.of_nat b) + y) with (y + 2 * (x * 2 ^ Z.of_nat b)) by lia.
      apply Z.odd_add_mul_2.
    + replace (x * (2 * 2 ^ Z.of_nat b) + y) with (x * 2 ^ Z.of_nat b * 2 + y) by lia.
      rewrite Z.div_add_l by lia. reflexivity.
Qed.

Lemma tobits_lor a b x y c : c = Z.shiftl x (Z.of_nat b) -> 0 <= y < 2 ^ Z.of_nat b ->
  tobits (a + b) (Z.lor y c) = tobits a x ++ tobits b y.
Proof.
  intros -> Hy. rewrite Z.lor_comm, lor_shift by lia. apply tobits_split; assumption.
Qed.

(** C truth of a mask test on a contiguous range of bits *)
Lemma tst_range dw lo hi mask : 0 <= lo <= hi -> mask = 2 ^ hi - 2 ^ lo -> 0 <= dw < 2 ^ hi ->
  tst dw mask = (2 ^ lo <=? dw).
Proof.
  intros Hlh -> Hd. unfold tst.
  assert (E : Z.land dw (2 ^ hi - 2 ^ lo) = Z.shiftl (Z.shiftr dw lo) lo).
  { replace (2 ^ hi - 2 ^ lo) with (Z.shiftl (Z.ones (hi - lo)) lo).
    2:{ rewrite Z.shiftl_mul_pow2 by lia. rewrite Z.ones_equiv.
        rewrite <- Z.sub_1_r, Z.mul_sub_distr_r, <- Z.pow_add_r by lia. f_equal; [f_equal; lia|lia]. }
    apply Z.bits_inj'. intros k Hk. rewrite Z.land_spec.
    destruct (Z.ltb_spec k lo); [rewrite !Z.shiftl_spec_low by lia; apply andb_false_r|].
    rewrite !Z.shiftl_spec, Z.shiftr_spec by lia. replace (k - lo + lo) with k by lia.
    destruct (Z.ltb_spec k hi).
    - rewrite Z.ones_spec_low by lia. apply andb_true_r.
    - rewrite (testbit_above dw hi k) by lia. reflexivity. }
  rewrite E, Z.shiftl_mul_pow2, Z.shiftr_div_pow2 by lia.
  assert (0 < 2 ^ lo) by (apply Z.pow_pos_nonneg; lia).
  destruct (Z.leb_spec (2 ^ lo) dw).
  - assert (1 <= dw / 2 ^ lo) by (apply Z.div_le_lower_bound; lia).
    apply negb_true_iff, Z.eqb_neq. nia.
  - rewrite Z.div_small by lia. reflexivity.
Qed.

Lemma bput_wr s v n bs : Forall is_byte (bdat s) -> tobits n v = bs -> (n <= 64)%nat ->
  (bpos s + n <= 8 * length (bdat s))%nat ->
  exists s', bput s v n = Some s' /\ wr s s' bs.
Proof. intros Hd <- Hn Hl. apply bput_spec; assumption. Qed.

Lemma bput2_wr s v1 n1 v2 n2 : Forall is_byte (bdat s) -> (n1 <= 64)%nat -> (n2 <= 64)%nat ->
  (bpos s + (n1 + n2) <= 8 * length (bdat s))%nat ->
  exists s', bput2 s v1 n1 v2 n2 = Some s' /\ wr s s' (tobits n1 v1 ++ tobits n2 v2).
Proof.
  intros Hd H1 H2 Hl. unfold bput2.
  destruct (bput_spec s v1 n1 Hd H1 ltac:(lia)) as (s1 & E1 & W1). rewrite E1.
  destruct (bput_spec s1 v2 n2) as (s2 & E2 & W2).
  - apply W1.
  - assumption.
  - rewrite (wr_pos _ _ _ W1), (wr_len _ _ _ W1), tobits_length. lia.
  - exists s2. split; [assumption|]. eapply wr_app; eassumption.
Qed.

(** *** bit strings of the encoders *)
Definition bits_sint (v : Z) : list bool :=
  if v <? 2 then tobits 2 v
  else if v <? 18 then tobits 2 2 ++ tobits 4 (v - 2)
  else if v <? 50 then tobits 3 6 ++ tobits 5 (v - 18)
  else tobits 3 7 ++ tobits 8 (v - 50).

Definition bits_short (v : Z) : list bool :=
  if v <? 2 then tobits 2 v
  else if v <? 258 then tobits 2 2 ++ tobits 8 (v - 2)
  else if v <? 4354 then tobits 3 6 ++ tobits 12 (v - 258)
  else tobits 3 7 ++ tobits 16 (v - 4354).

Definition bits_uint (v : Z) : list bool :=
  if v <? 16 then tobits 2 0 ++ tobits 4 v
  else if v <? 256 then tobits 2 1 ++ tobits 8 v
  else if v <? 65536 then tobits 3 5 ++ tobits 16 v
  else if v <? 16777216 then tobits 3 6 ++ tobits 24 v
  else tobits 3 7 ++ tobits 32 v.

Definition bits_mag (m : Z) : list bool :=
  if m <? 1 then tobits 1 0
  else if m <? 2 ^ 4 then tobits 2 2 ++ tobits 4 m
  else if m <? 2 ^ 8 then tobits 5 24 ++ tobits 8 m
  else if m <? 2 ^ 12 then tobits 5 25 ++ tobits 12 m
  else if m <? 2 ^ 16 then tobits 5 26 ++ tobits 16 m
  else if m <? 2 ^ 20 then tobits 5 27 ++ tobits 20 m
  else if m <? 2 ^ 24 then tobits 6 56 ++ tobits 24 m
  else if m <? 2 ^ 28 then tobits 6 57 ++ tobits 28 m
  else if m <? 2 ^ 32 then tobits 6 58 ++ tobits 32 m
  else if m <? 2 ^ 40 then tobits 6 60 ++ tobits 40 m
  else if m <? 2 ^ 48 then tobits 6 61 ++ tobits 48 m
  else if m <? 2 ^ 56 then tobits 6 62 ++ tobits 56 m
  else tobits 6 63 ++ tobits 63 m.

Definition bits_int (v : Z) : list bool := tobits 1 (if v <? 0 then 1 else 0) ++ bits_mag (Z.abs v).

(** *** writers produce those strings *)
Ltac do_wr :=
  match goal with
  | |- exists s', match ?o with _ => _ end = Some (true, s') /\ wr ?s0 _ ?bs =>
      let E := fresh in let W := fresh in
      assert (exists s', o = Some s' /\ wr s0 s' bs) as (? & E & W);
      [|rewrite E; eexists; split; [reflexivity|exact W]]
  end.

Lemma bput_sint_ok s v : Forall is_byte (bdat s) -> 0 <= v < 306 ->
  (bpos s + length (bits_sint v) <= 8 * length (bdat s))%nat ->
  exists s', bput_sint s v = Some (true, s') /\ wr s s' (bits_sint v).
Proof.
  intros Hd Hv Hl. unfold bput_sint, bits_sint in *.
  destruct (Z.ltb_spec v 2).
  { do_wr. rewrite tobits_length in Hl. apply bput_spec; auto; lia. }
  destruct (Z.ltb_spec v 18).
  { destruct (Z.ltb_spec (v - 2) 16); [|lia]. do_wr. rewrite app_length, !tobits_length in Hl.
    apply bput2_wr; auto; lia. }
  destruct (Z.ltb_spec (v - 2) 16); [lia|].
  replace (v - 2 - 16) with (v - 18) by lia.
  destruct (Z.ltb_spec v 50).
  { destruct (Z.ltb_spec (v - 18) 32); [|lia]. do_wr. rewrite app_length, !tobits_length in Hl.
    apply bput2_wr; auto; lia. }
  destruct (Z.ltb_spec (v - 18) 32); [lia|].
  replace (v - 18 - 32) with (v - 50) by lia.
  destruct (Z.ltb_spec (v - 50) 256); [|lia]. do_wr. rewrite app_length, !tobits_length in Hl.
  apply bput2_wr; auto; lia.
Qed.

Lemma bput_sint_reject s v : 306 <= v -> bput_sint s v = Some (false, s).
Proof.
  intros Hv. unfold bput_sint.
  destruct (Z.ltb_spec v 2); [lia|]. destruct (Z.ltb_spec (v - 2) 16); [lia|].
  destruct (Z.ltb_spec (v - 2 - 16) 32); [lia|]. destruct (Z.ltb_spec (v - 2 - 16 - 32) 256); [lia|].
  reflexivity.
Qed.

Lemma bput_short_ok s v : Forall is_byte (bdat s) -> 0 <= v < 69890 ->
  (bpos s + length (bits_short v) <= 8 * length (bdat s))%nat ->
  exists s', bput_short s v = Some (true, s') /\ wr s s' (bits_short v).
Proof.
  intros Hd Hv Hl. unfold bput_short, bits_short in *.
  destruct (Z.ltb_spec v 2).
  { do_wr. rewrite tobits_length in Hl. apply bput_spec; auto; lia. }
  destruct (Z.ltb_spec v 258).
  { destruct (Z.ltb_spec (v - 2) 256); [|lia]. do_wr. rewrite app_length, !tobits_length in Hl.
    apply bput2_wr; auto; lia. }
  destruct (Z.ltb_spec (v - 2) 256); [lia|].
  replace (v - 2 - 256) with (v - 258) by lia.
  destruct (Z.ltb_spec v 4354).
  { destruct (Z.ltb_spec (v - 258) 4096); [|lia]. do_wr. rewrite app_length, !tobits_length in Hl.
    apply bput2_wr; auto; lia. }
  destruct (Z.ltb_spec (v - 258) 4096); [lia|].
  replace (v - 258 - 4096) with (v - 4354) by lia.
  destruct (Z.ltb_spec (v - 4354) 65536); [|lia]. do_wr. rewrite app_length, !tobits_length in Hl.
  apply bput2_wr; auto; lia.
Qed.

Lemma bput_short_reject s v : 69890 <= v -> bput_short s v = Some (false, s).
Proof.
  intros Hv. unfold bput_short.
  destruct (Z.ltb_spec v 2); [lia|]. destruct (Z.ltb_spec (v - 2) 256); [lia|].
  destruct (Z.ltb_spec (v - 2 - 256) 4096); [lia|]. destruct (Z.ltb_spec (v - 2 - 256 - 4096) 65536); [lia|].
  reflexivity.
Qed.

Ltac tst_to lo hi :=
  match goal with
  | |- context [tst ?dw ?mask] => rewrite (tst_range dw lo hi mask); [|lia|reflexivity|lia]
  end.

Ltac lor_wr a b x :=
  apply bput_wr; [assumption| |lia|];
  [ change (tobits (a + b) ?z) with (tobits (a + b)%nat z) || idtac;
    apply (tobits_lor a b x); [reflexivity|cbn; lia]
  | cbn [app] in *; rewrite ?app_length, ?tobits_length in *; lia ].

Lemma bput_uint_ok s v : Forall is_byte (bdat s) -> 0 <= v < 2 ^ 32 ->
  (bpos s + length (bits_uint v) <= 8 * length (bdat s))%nat ->
  exists s', bput_uint s v = Some s' /\ wr s s' (bits_uint v).
Proof.
  intros Hd Hv Hl. unfold bput_uint. rewrite to_u_small by assumption.
  unfold bits_uint in *.
  tst_to 8 32. change (2 ^ 8) with 256.
  destruct (Z.ltb_spec v 16).
  { destruct (Z.leb_spec 256 v); [lia|]. tst_to 4 8. destruct (Z.leb_spec (2 ^ 4) v); [lia|].
    apply bput_wr; [assumption| |lia|rewrite app_length, !tobits_length in Hl; lia].
    apply (tobits_split 2 4 0 v). cbn; lia. }
  destruct (Z.ltb_spec v 256).
  { destruct (Z.leb_spec 256 v); [lia|]. tst_to 4 8. destruct (Z.leb_spec (2 ^ 4) v); [|lia].
    lor_wr 2%nat 8%nat 1. }
  destruct (Z.leb_spec 256 v); [|lia].
  tst_to 24 32. destruct (Z.leb_spec (2 ^ 24) v).
  { destruct (Z.ltb_spec v 65536); [lia|].
    destruct (Z.ltb_spec v 16777216); [lia|]. lor_wr 3%nat 32%nat 7. }
  tst_to 16 24. destruct (Z.leb_spec (2 ^ 16) v).
  { destruct (Z.ltb_spec v 65536); [lia|].
    destruct (Z.ltb_spec v 16777216); [|lia]. lor_wr 3%nat 24%nat 6. }
  tst_to 8 16. destruct (Z.leb_spec (2 ^ 8) v); [|lia].
  destruct (Z.ltb_spec v 65536); [|lia]. lor_wr 3%nat 16%nat 5.
Qed.

Lemma bput_mag_ok s m : Forall is_byte (bdat s) -> 0 <= m < 2 ^ 63 ->
  (bpos s + length (bits_mag m) <= 8 * length (bdat s))%nat ->
  exists s',
   (if tst m 0x7FFFFFFFFFF00000 then
      if tst m 0x7F00000000000000 then bput2 s 0x3F 6 m 63
      else if tst m 0xFF000000000000 then bput s (Z.lor m 0x3E00000000000000) 62
      else if tst m 0xFF0000000000 then bput s (Z.lor m 0x3D000000000000) 54
      else if tst m 0xFF00000000 then bput s (Z.lor m 0x3C0000000000) 46
      else if tst m 0xF00000000 then bput s (Z.lor m 0x3B000000000) 42
      else if tst m 0xF0000000 then bput s (Z.lor m 0x3A00000000) 38
      else if tst m 0xF000000 then bput s (Z.lor m 0x390000000) 34
      else bput s (Z.lor m 0x38000000) 30
    else if tst m 0xFFFF0 then
      if tst m 0xF0000 then bput s (Z.lor m 0x1B00000) 25
      else if tst m 0xF000 then bput s (Z.lor m 0x1A0000) 21
      else if tst m 0xF00 then bput s (Z.lor m 0x19000) 17
      else bput s (Z.lor m 0x1800) 13
    else if tst m 0xF then bput s (Z.lor m 0x20) 6
    else bput s 0 1) = Some s' /\ wr s s' (bits_mag m).
Proof.
  intros Hd Hv Hl. unfold bits_mag in *.
  tst_to 20 63. destruct (Z.leb_spec (2 ^ 20) m).
  - destruct (Z.ltb_spec m 1); [lia|]. destruct (Z.ltb_spec m (2 ^ 4)); [lia|].
    destruct (Z.ltb_spec m (2 ^ 8)); [lia|]. destruct (Z.ltb_spec m (2 ^ 12)); [lia|].
    destruct (Z.ltb_spec m (2 ^ 16)); [lia|]. destruct (Z.ltb_spec m (2 ^ 20)); [lia|].
    tst_to 56 63. destruct (Z.leb_spec (2 ^ 56) m).
    { destruct (Z.ltb_spec m (2 ^ 24)); [lia|]. destruct (Z.ltb_spec m (2 ^ 28)); [lia|].
      destruct (Z.ltb_spec m (2 ^ 32)); [lia|]. destruct (Z.ltb_spec m (2 ^ 40)); [lia|].
      destruct (Z.ltb_spec m (2 ^ 48)); [lia|]. destruct (Z.ltb_spec m (2 ^ 56)); [lia|].
      rewrite app_length, !tobits_length in Hl. apply bput2_wr; auto; lia. }
    tst_to 48 56. destruct (Z.leb_spec (2 ^ 48) m).
    { destruct (Z.ltb_spec m (2 ^ 24)); [lia|]. destruct (Z.ltb_spec m (2 ^ 28)); [lia|].
      destruct (Z.ltb_spec m (2 ^ 32)); [lia|]. destruct (Z.ltb_spec m (2 ^ 40)); [lia|].
      destruct (Z.ltb_spec m (2 ^ 48)); [lia|]. destruct (Z.ltb_spec m (2 ^ 56)); [|lia].
      lor_wr 6%nat 56%nat 62. }
    tst_to 40 48. destruct (Z.leb_spec (2 ^ 40) m).
    { destruct (Z.ltb_spec m (2 ^ 24)); [lia|]. destruct (Z.ltb_spec m (2 ^ 28)); [lia|].
      destruct (Z.ltb_spec m (2 ^ 32)); [lia|]. destruct (Z.ltb_spec m (2 ^ 40)); [lia|].
      destruct (Z.ltb_spec m (2 ^ 48)); [|lia]. lor_wr 6%nat 48%nat 61. }
    tst_to 32 40. destruct (Z.leb_spec (2 ^ 32) m).
    { destruct (Z.ltb_spec m (2 ^ 24)); [lia|]. destruct (Z.ltb_spec m (2 ^ 28)); [lia|].
      destruct (Z.ltb_spec m (2 ^ 32)); [lia|]. destruct (Z.ltb_spec m (2 ^ 40)); [|lia].
      lor_wr 6%nat 40%nat 60. }
    tst_to 32 36. destruct (Z.leb_spec (2 ^ 32) m); [lia|].
    tst_to 28 32. destruct (Z.leb_spec (2 ^ 28) m).
    { destruct (Z.ltb_spec m (2 ^ 24)); [lia|]. destruct (Z.ltb_spec m (2 ^ 28)); [lia|].
      destruct (Z.ltb_spec m (2 ^ 32)); [|lia]. lor_wr 6%nat 32%nat 58. }
    tst_to 24 28. destruct (Z.leb_spec (2 ^ 24) m).
    { destruct (Z.ltb_spec m (2 ^ 24)); [lia|]. destruct (Z.ltb_spec m (2 ^ 28)); [|lia].
      lor_wr 6%nat 28%nat 57. }
    destruct (Z.ltb_spec m (2 ^ 24)); [|lia]. lor_wr 6%nat 24%nat 56.
  - tst_to 4 20. destruct (Z.leb_spec (2 ^ 4) m).
    + destruct (Z.ltb_spec m 1); [lia|]. destruct (Z.ltb_spec m (2 ^ 4)); [lia|].
      tst_to 16 20. destruct (Z.leb_spec (2 ^ 16) m).
      { destruct (Z.ltb_spec m (2 ^ 8)); [lia|]. destruct (Z.ltb_spec m (2 ^ 12)); [lia|].
        destruct (Z.ltb_spec m (2 ^ 16)); [lia|]. destruct (Z.ltb_spec m (2 ^ 20)); [|lia].
        lor_wr 5%nat 20%nat 27. }
      tst_to 12 16. destruct (Z.leb_spec (2 ^ 12) m).
      { destruct (Z.ltb_spec m (2 ^ 8)); [lia|]. destruct (Z.ltb_spec m (2 ^ 12)); [lia|].
        destruct (Z.ltb_spec m (2 ^ 16)); [|lia]. lor_wr 5%nat 16%nat 26. }
      tst_to 8 12. destruct (Z.leb_spec (2 ^ 8) m).
      { destruct (Z.ltb_spec m (2 ^ 8)); [lia|]. destruct (Z.ltb_spec m (2 ^ 12)); [|lia].
        lor_wr 5%nat 12%nat 25. }
      destruct (Z.ltb_spec m (2 ^ 8)); [|lia]. lor_wr 5%nat 8%nat 24.
    + tst_to 0 4. change (2 ^ 0) with 1. destruct (Z.leb_spec 1 m).
      { destruct (Z.ltb_spec m 1); [lia|]. destruct (Z.ltb_spec m (2 ^ 4)); [|lia].
        lor_wr 2%nat 4%nat 2. }
      destruct (Z.ltb_spec m 1); [|lia]. rewrite tobits_length in Hl. apply bput_spec; auto; lia.
Qed.

Lemma bput_int_ok s v : Forall is_byte (bdat s) -> - 2 ^ 63 < v < 2 ^ 63 ->
  (bpos s + length (bits_int v) <= 8 * length (bdat s))%nat ->
  exists s', bput_int s v = Some s' /\ wr s s' (bits_int v).
Proof.
  intros Hd Hv Hl. unfold bput_int, bits_int in *.
  rewrite app_length, tobits_length in Hl.
  replace (if v <? 0 then to_s 64 (- v) else v) with (Z.abs v).
  2:{ destruct (Z.ltb_spec v 0); [rewrite to_s_small by lia|]; lia. }
  destruct (bput_spec s (if v <? 0 then 1 else 0) 1 Hd ltac:(lia) ltac:(lia)) as (s1 & E1 & W1).
  rewrite E1.
  destruct (bput_mag_ok s1 (Z.abs v)) as (s2 & E2 & W2).
  - apply W1.
  - lia.
  - rewrite (wr_pos _ _ _ W1), (wr_len _ _ _ W1), tobits_length. lia.
  - exists s2. split; [exact E2|]. eapply wr_app; eassumption.
Qed.

(** *** readers *)
Ltac rd_bits p k := (* the first field [tobits p k] of the bits to read *)
  match goal with
  | H : rd ?s ?s' (tobits p k ++ ?rest) |- _ =>
      let s1 := fresh "s" in let R1 := fresh "R" in let R2 := fresh "R" in
      apply rd_app in H; destruct H as (s1 & R1 & R2);
      rewrite (bget_rd_small s s1 p k R1) by (cbn; lia)
  end.

Ltac rd_last p m :=
  match goal with
  | H : rd ?s ?s' (tobits p m) |- _ =>
      rewrite (bget_rd_small s s' p m H) by (cbn; lia)
  end.

Lemma bget_sint_ok s s' v : 0 <= v < 306 -> rd s s' (bits_sint v) -> bget_sint s = Some (v, s').
Proof.
  intros Hv H. unfold bget_sint, bits_sint in *.
  destruct (Z.ltb_spec v 2).
  { rd_last 2%nat v. destruct (Z.eqb_spec v 0); [reflexivity|]. destruct (Z.eqb_spec v 1); [reflexivity|lia]. }
  destruct (Z.ltb_spec v 18).
  { rd_bits 2%nat 2. cbn [Z.eqb Pos.eqb orb]. rd_last 4%nat (v - 2).
    rewrite to_u_small by lia. f_equal; f_equal; lia. }
  destruct (Z.ltb_spec v 50).
  { change (tobits 3 6) with (tobits 2 3 ++ tobits 1 0) in H. rewrite <- app_assoc in H.
    rd_bits 2%nat 3. cbn [Z.eqb Pos.eqb orb]. rd_bits 1%nat 0. cbn [Z.eqb].
    rd_last 5%nat (v - 18). rewrite to_u_small by lia. f_equal; f_equal; lia. }
  change (tobits 3 7) with (tobits 2 3 ++ tobits 1 1) in H. rewrite <- app_assoc in H.
  rd_bits 2%nat 3. cbn [Z.eqb Pos.eqb orb]. rd_bits 1%nat 1. cbn [Z.eqb].
  rd_last 8%nat (v - 50). rewrite to_u_small by lia. f_equal; f_equal; lia.
Qed.

Lemma bget_short_ok s s' v : 0 <= v < 69890 -> rd s s' (bits_short v) -> bget_short s = Some (v, s').
Proof.
  intros Hv H. unfold bget_short, bits_short in *.
  destruct (Z.ltb_spec v 2).
  { rd_last 2%nat v. destruct (Z.eqb_spec v 0); [reflexivity|]. destruct (Z.eqb_spec v 1); [reflexivity|lia]. }
  destruct (Z.ltb_spec v 258).
  { rd_bits 2%nat 2. cbn [Z.eqb Pos.eqb orb]. rd_last 8%nat (v - 2).
    rewrite to_u_small by lia. f_equal; f_equal; lia. }
  destruct (Z.ltb_spec v 4354).
  { change (tobits 3 6) with (tobits 2 3 ++ tobits 1 0) in H. rewrite <- app_assoc in H.
    rd_bits 2%nat 3. cbn [Z.eqb Pos.eqb orb]. rd_bits 1%nat 0. cbn [Z.eqb].
    rd_last 12%nat (v - 258). rewrite to_u_small by lia. f_equal; f_equal; lia. }
  change (tobits 3 7) with (tobits 2 3 ++ tobits 1 1) in H. rewrite <- app_assoc in H.
  rd_bits 2%nat 3. cbn [Z.eqb Pos.eqb orb]. rd_bits 1%nat 1. cbn [Z.eqb].
  rd_last 16%nat (v - 4354). rewrite to_u_small by lia. f_equal; f_equal; lia.
Qed.

Lemma bget_uint_ok s s' v : 0 <= v < 2 ^ 32 -> rd s s' (bits_uint v) -> bget_uint s = Some (v, s').
Proof.
  intros Hv H. unfold bget_uint, bits_uint in *.
  destruct (Z.ltb_spec v 16).
  { change (tobits 2 0) with (tobits 1 0 ++ tobits 1 0) in H. rewrite <- app_assoc in H.
    rd_bits 1%nat 0. cbn [Z.eqb]. rd_bits 1%nat 0. cbn [Z.eqb]. rd_last 4%nat v.
    rewrite to_u_small by lia. reflexivity. }
  destruct (Z.ltb_spec v 256).
  { change (tobits 2 1) with (tobits 1 0 ++ tobits 1 1) in H. rewrite <- app_assoc in H.
    rd_bits 1%nat 0. cbn [Z.eqb]. rd_bits 1%nat 1. cbn [Z.eqb]. rd_last 8%nat v.
    rewrite to_u_small by lia. reflexivity. }
  destruct (Z.ltb_spec v 65536).
  { change (tobits 3 5) with (tobits 1 1 ++ tobits 2 1) in H. rewrite <- app_assoc in H.
    rd_bits 1%nat 1. cbn [Z.eqb]. rd_bits 2%nat 1. cbn [Z.eqb Pos.eqb]. rd_last 16%nat v.
    rewrite to_u_small by lia. reflexivity. }
  destruct (Z.ltb_spec v 16777216).
  { change (tobits 3 6) with (tobits 1 1 ++ tobits 2 2) in H. rewrite <- app_assoc in H.
    rd_bits 1%nat 1. cbn [Z.eqb]. rd_bits 2%nat 2. cbn [Z.eqb Pos.eqb]. rd_last 24%nat v.
    rewrite to_u_small by lia. reflexivity. }
  change (tobits 3 7) with (tobits 1 1 ++ tobits 2 3) in H. rewrite <- app_assoc in H.
  rd_bits 1%nat 1. cbn [Z.eqb]. rd_bits 2%nat 3. cbn [Z.eqb Pos.eqb]. rd_last 32%nat v.
  rewrite to_u_small by lia. reflexivity.
Qed.

Lemma int_sign v : - 2 ^ 63 < v < 2 ^ 63 ->
  (if (if v <? 0 then 1 else 0) =? 0 then to_s 64 (Z.abs v) else to_s 64 (- to_s 64 (Z.abs v))) = v.
Proof.
  intros Hv. destruct (Z.ltb_spec v 0); cbn [Z.eqb]; rewrite (to_s_small 64 (Z.abs v)) by lia; rewrite ?to_s_small by lia; lia.
Qed.

Ltac int5 k n m :=
  match goal with H : rd _ _ (tobits 5 ?c ++ _) |- _ =>
    change (tobits 5 c) with (tobits 1 1 ++ tobits 1 1 ++ tobits 1 0 ++ tobits 2 k) in H;
    rewrite <- !app_assoc in H end;
  rd_bits 1%nat 1; cbn [Z.eqb]; rd_bits 1%nat 1; cbn [Z.eqb]; rd_bits 1%nat 0; cbn [Z.eqb];
  rd_bits 2%nat k; cbn [Z.eqb Pos.eqb]; rd_last n m.

Ltac int6 k n m :=
  match goal with H : rd _ _ (tobits 6 ?c ++ _) |- _ =>
    change (tobits 6 c) with (tobits 1 1 ++ tobits 1 1 ++ tobits 1 1 ++ tobits 3 k) in H;
    rewrite <- !app_assoc in H end;
  rd_bits 1%nat 1; cbn [Z.eqb]; rd_bits 1%nat 1; cbn [Z.eqb]; rd_bits 1%nat 1; cbn [Z.eqb];
  rd_bits 3%nat k; cbn [Z.eqb Pos.eqb]; rd_last n m.

Lemma bget_int_ok s s' v : - 2 ^ 63 < v < 2 ^ 63 -> rd s s' (bits_int v) -> bget_int s = Some (v, s').
Proof.
  intros Hv H. unfold bget_int, bits_int in *.
  apply rd_app in H. destruct H as (s1 & R1 & H).
  rewrite (bget_rd_small s s1 1 _ R1) by (destruct (v <? 0); cbn; lia).
  assert (Hs := int_sign v Hv).
  unfold bits_mag in H. set (m := Z.abs v) in *.
  set (sg := if v <? 0 then 1 else 0) in *.
  assert (Hm : 0 <= m < 2 ^ 63) by (unfold m; lia).
  destruct (Z.ltb_spec m 1).
  { rd_last 1%nat 0. cbn [Z.eqb]. f_equal. f_equal. unfold m in *; lia. }
  destruct (Z.ltb_spec m (2 ^ 4)).
  { change (tobits 2 2) with (tobits 1 1 ++ tobits 1 0) in H. rewrite <- app_assoc in H.
    rd_bits 1%nat 1. cbn [Z.eqb]. rd_bits 1%nat 0. cbn [Z.eqb]. rd_last 4%nat m. rewrite Hs. reflexivity. }
  destruct (Z.ltb_spec m (2 ^ 8)); [int5 0 8%nat m; rewrite Hs; reflexivity|].
  destruct (Z.ltb_spec m (2 ^ 12)); [int5 1 12%nat m; rewrite Hs; reflexivity|].
  destruct (Z.ltb_spec m (2 ^ 16)); [int5 2 16%nat m; rewrite Hs; reflexivity|].
  destruct (Z.ltb_spec m (2 ^ 20)); [int5 3 20%nat m; rewrite Hs; reflexivity|].
  destruct (Z.ltb_spec m (2 ^ 24)); [int6 0 24%nat m; rewrite Hs; reflexivity|].
  destruct (Z.ltb_spec m (2 ^ 28)); [int6 1 28%nat m; rewrite Hs; reflexivity|].
  destruct (Z.ltb_spec m (2 ^ 32)); [int6 2 32%nat m; rewrite Hs; reflexivity|].
  destruct (Z.ltb_spec m (2 ^ 40)); [int6 4 40%nat m; rewrite Hs; reflexivity|].
  destruct (Z.ltb_spec m (2 ^ 48)); [int6 5 48%nat m; rewrite Hs; reflexivity|].
  destruct (Z.ltb_spec m (2 ^ 56)); [int6 6 56%nat m; rewrite Hs; reflexivity|].
  int6 7 63%nat m; rewrite Hs; reflexivity.
Qed.
