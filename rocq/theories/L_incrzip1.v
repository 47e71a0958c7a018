(** Round trip of the one-shot table compressor. *)
From Verif Require Import Base S_bits M_bits L_bits L_bitcodec L_bitprops L_ext M_dynamic M_incrzip S_incrzip L_incrzip.
From Coq Require Import ZifyBool ZifyNat.

Lemma le_val_zeros n : le_val (repeat 0 n) = 0.
Proof. induction n; cbn [repeat le_val]; lia. Qed.

Lemma skipn_repeat0 k n : skipn k (repeat 0 n) = repeat 0 (n - k).
Proof. revert n; induction k as [|k IH]; intros [|n]; cbn; auto. Qed.

Lemma eval_zero f n i : eval f (repeat 0 n) i = 0.
Proof.
  unfold eval. destruct (int_len (flen f)) eqn:El; [|reflexivity]. apply int_len_cases in El. cbn zeta.
  unfold word. rewrite skipn_repeat0, firstn_repeat0, le_val_zeros.
  destruct (fstyle f =? ty_int); [|reflexivity].
  unfold to_s. rewrite Z.mod_0_l; [|apply Z.pow_nonzero; lia].
  destruct (Z.ltb_spec 0 (2 ^ (8 * Z.of_nat (flen f) - 1))); [reflexivity|].
  assert (0 < 2 ^ (8 * Z.of_nat (flen f) - 1)) by (apply Z.pow_pos_nonneg; lia). lia.
Qed.

Lemma rec_ok_zero n : rec_ok n (repeat 0 n).
Proof.
  split; [apply repeat_length|]. apply Forall_forall. intros x Hx. apply repeat_spec in Hx. subst. unfold is_byte; lia.
Qed.

Lemma steps_diffs n fs recs : forall prev, Forall (field_ok n) fs -> rec_ok n prev -> Forall (rec_ok n) recs ->
  steps_ok (columns fs) prev recs -> all_diffs_ok fs prev recs.
Proof.
  induction recs as [|r recs IH]; intros prev Hf Hp Hr H; cbn in *; [exact I|].
  apply Forall_cons_iff in Hr. destruct Hr as [Hr1 Hr2]. destruct H as [H1 H2].
  split; [eapply step_diffs; eassumption|]. apply IH; assumption.
Qed.

Lemma rd_hdr s s' seen kidx sidx n rest : 0 <= kidx < 2 ^ 32 -> 0 <= sidx < 2 ^ 32 -> Z.of_nat n < 2 ^ 31 ->
  rd s s' (bits_hdr seen kidx sidx n ++ rest) ->
  exists s1 s2 s3 s4, bget s 1 = Some (if seen then 1 else 0, s1) /\ bget_uint s1 = Some (kidx, s2)
    /\ bget_uint s2 = Some (sidx, s3) /\ bget_uint s3 = Some (Z.of_nat n, s4) /\ rd s4 s' rest.
Proof.
  intros Hk Hs Hn H. unfold bits_hdr in H. rewrite <- !app_assoc in H.
  apply rd_app in H. destruct H as (s1 & R1 & H). apply rd_app in H. destruct H as (s2 & R2 & H).
  apply rd_app in H. destruct H as (s3 & R3 & H). apply rd_app in H. destruct H as (s4 & R4 & H).
  exists s1, s2, s3, s4. split; [apply bget_rd_small; auto; [lia|destruct seen; cbn; lia]|].
  split; [apply bget_uint_ok; assumption|]. split; [apply bget_uint_ok; assumption|].
  split; [apply bget_uint_ok; [lia|assumption]|assumption].
Qed.

Lemma same_cov_values fs a b : same_cov fs a b -> same_values (columns fs) a b.
Proof.
  intros [H1 H2]. split; [assumption|]. intros p Hp. apply nth_nth_error; [assumption|].
  apply H2. apply cov_covered. assumption.
Qed.

Lemma same_cov_all fs n a b : same_cov fs a b -> length a = n -> (forall p, (p < n)%nat -> covered (columns fs) p) -> b = a.
Proof.
  intros [H1 H2] Hn HC. apply nth_ext with (d := 0) (d' := 0); [congruence|].
  intros p Hp. symmetry. apply H2. apply cov_covered. apply HC. lia.
Qed.

Lemma zcompress_roundtrip_lemma t stale buf recs bytes :
  Forall (field_ok (tsize t)) (tfields t) -> Forall is_byte buf ->
  Forall (fun r => length r = tsize t /\ Forall is_byte r) recs ->
  Z.of_nat (length recs) < 2 ^ 31 ->
  steps_ok (columns (tfields t)) (repeat 0 (tsize t)) recs ->
  zcompress t buf recs = Some bytes ->
  exists rs, zuncompress t stale bytes = Some (ZRecs rs)
    /\ Forall2 (same_values (columns (tfields t))) recs rs
    /\ ((forall p, (p < tsize t)%nat -> covered (columns (tfields t)) p) -> rs = recs).
Proof.
  intros Hf Hb Hr Hn Hst H. unfold zcompress in H.
  set (zero := repeat 0 (tsize t)) in *.
  assert (Hz : rec_ok (tsize t) zero) by apply rec_ok_zero.
  assert (HD := steps_diffs _ _ _ _ Hf Hz Hr Hst).
  destruct (zbag _ _ _ _ _ _ _) as [[s sl]|] eqn:E; [|discriminate].
  apply zbag_wrc in E; auto; try (cbn; lia); [|apply Hz].
  destruct E as [W _]. cbn [sseen smem bits_init Z.b2z] in W.
  destruct (zset_bags s 1) as [[s' n]|] eqn:E2; [|discriminate]. injection H as <-.
  assert (C := cont_wrc _ _ _ _ (cont_start buf Hb) W). rewrite app_nil_l in C.
  destruct (packet_ok s _ 1 s' n C ltac:(lia) E2) as [R HB].
  set (pkt := firstn (zgetsize s' n) (bdat s')) in *.
  unfold zuncompress. rewrite HB. cbn [Z.eqb Pos.eqb negb].
  apply rd_app in R. destruct R as (s1 & R1 & R).
  rewrite (bget_rd_small _ s1 1 1 R1) by (cbn; lia). cbn [Z.eqb Pos.eqb negb].
  unfold bits_bag in R. apply rd_hdr in R; [|lia|lia|assumption].
  destruct R as (s2 & s3 & s4 & s5 & G1 & G2 & G3 & G4 & R).
  rewrite G1. cbn [Z.eqb negb]. rewrite G2, G3, G4.
  rewrite to_s_small by (change (32 - 1) with 31; lia). rewrite Nat2Z.id. cbn zeta.
  match goal with |- context [zget_recs s5 None (tfields t) ?o] => set (outs := o) end.
  destruct (zget_recs_ok (tsize t) (tfields t) recs None zero outs s5 (mkbs pkt (bpos s))) as (rs & Z1 & Z2); auto.
  - unfold outs. rewrite map_length, seq_length. reflexivity.
  - apply Forall_forall. intros o Ho. unfold outs in Ho. apply in_map_iff in Ho.
    destruct Ho as (k & <- & _). rewrite map_length, seq_length. reflexivity.
  - apply Hz.
  - intros f Hin. cbn [mem_agrees]. intros i Hi. apply eval_zero.
  - rewrite Z1. exists rs. split; [reflexivity|]. split.
    + clear - Z2. induction Z2; constructor; auto. apply same_cov_values. assumption.
    + intros HC. clear - Z2 HC Hr. induction Z2 as [|a b l l' Hab _ IH]; [reflexivity|].
      apply Forall_cons_iff in Hr. destruct Hr as [[Hr1 _] Hr2]. f_equal; [|auto].
      eapply same_cov_all; eassumption.
Qed.
