(** Successful writes fit in the buffer: from "the writer returned" to "exactly these bits
    were written". *)
From Verif Require Import Base S_bits M_bits L_bits L_bitcodec L_bitprops.
From Coq Require Import ZifyBool ZifyNat.
Ltac Zify.zify_post_hook ::= Z.div_mod_to_equations.

(** a write that succeeded, with the bound on its end position *)
Definition wrc (s s' : bstream) (bs : list bool) : Prop :=
  wr s s' bs /\ (bpos s' <= 8 * length (bdat s'))%nat.

Definition extends (p : bstream -> option bstream) : Prop :=
  forall d pos e s', (pos <= 8 * length d)%nat -> p (mkbs d pos) = Some s' ->
    p (mkbs (d ++ e) pos) = Some (mkbs (bdat s' ++ e) (bpos s'))
    /\ (bpos s' <= 8 * length (bdat s'))%nat.

Lemma upd_ext l k x l' e : upd l k x = Some l' -> upd (l ++ e) k x = Some (l' ++ e).
Proof.
  revert k l'; induction l as [|y l IH]; intros k l' H; cbn [upd] in H; [discriminate|].
  destruct k as [|k]; cbn [app upd].
  - injection H as <-. reflexivity.
  - destruct (upd l k x) as [r|] eqn:E; [|discriminate]. injection H as <-.
    rewrite (IH k r E). reflexivity.
Qed.

Lemma upd_len l k x l' : upd l k x = Some l' -> length l' = length l /\ (k < length l)%nat.
Proof. intros H. destruct (upd_spec _ _ _ _ H) as (A & B & _). auto. Qed.

Lemma put_loop_ext fuel : forall d pos inw off d' p' e,
  (pos mod 8 = 0 \/ off = 0)%nat -> (pos <= 8 * length d)%nat ->
  put_loop fuel d pos inw off = Some (d', p') ->
  put_loop fuel (d ++ e) pos inw off = Some (d' ++ e, p') /\ (p' <= 8 * length d')%nat.
Proof.
  induction fuel as [|fuel IH]; intros d pos inw off d' p' e Hm Hp H.
  - destruct off; [|discriminate]. cbn in *. injection H as <- <-. auto.
  - destruct off as [|off]; [cbn in *; injection H as <- <-; auto|].
    cbn [put_loop] in *. destruct (upd d (pos / 8) (Z.shiftr inw 56)) as [d1|] eqn:E; [|discriminate].
    rewrite (upd_ext _ _ _ _ e E). destruct (upd_len _ _ _ _ E) as [L1 L2].
    apply IH; [|lia|exact H].
    destruct (le_lt_dec (S off) 8); [right; lia|left; lia].
Qed.

Lemma bput_ext v n : extends (fun s => bput s v n).
Proof.
  intros d pos e s' Hp H. unfold bput in *. destruct n as [|n']; [injection H as <-; cbn in *; auto|].
  set (n := S n') in *. cbn [bdat bpos] in *.
  destruct (pos mod 8)%nat as [|lb] eqn:El.
  - destruct (put_loop 9 d pos _ n) as [[d' p']|] eqn:E; [|discriminate]. injection H as <-.
    destruct (put_loop_ext _ _ _ _ _ _ _ e (or_introl El) Hp E) as [E2 E3]. rewrite E2. auto.
  - unfold ld in *. destruct (nth_error d (pos / 8)) as [old|] eqn:Ed; [|discriminate].
    assert (Hk : (pos / 8 < length d)%nat) by (apply nth_error_Some; congruence).
    rewrite nth_error_app1 by assumption. rewrite Ed.
    destruct (upd d (pos / 8) _) as [d1|] eqn:E1; [|discriminate].
    rewrite (upd_ext _ _ _ _ e E1). destruct (upd_len _ _ _ _ E1) as [L1 L2].
    destruct (put_loop 9 d1 _ _ _) as [[d' p']|] eqn:E; [|discriminate]. injection H as <-.
    assert (Hpre : ((pos + Nat.min n (8 - S lb)) mod 8 = 0 \/ n - (8 - S lb) = 0)%nat).
    { assert (Hlb : (S lb < 8)%nat) by (rewrite <- El; apply Nat.mod_upper_bound; lia).
      destruct (le_lt_dec n (8 - S lb)); [right; lia|left].
      rewrite Nat.min_r by lia.
      assert (Hdm := Nat.div_mod pos 8 ltac:(lia)). rewrite El in Hdm.
      replace (pos + (8 - S lb))%nat with ((pos / 8 + 1) * 8)%nat; [apply Nat.mod_mul; lia|].
      clear - Hdm Hlb. set (q := (pos / 8)%nat) in *. clearbody q. lia. }
    assert (Hcap : (pos + Nat.min n (8 - S lb) <= 8 * length d1)%nat).
    { assert (Hdm := Nat.div_mod pos 8 ltac:(lia)). rewrite El in Hdm.
      assert (Hlb : (S lb < 8)%nat) by (rewrite <- El; apply Nat.mod_upper_bound; lia).
      clear - Hdm Hk L1 Hlb. set (q := (pos / 8)%nat) in *. clearbody q. lia. }
    destruct (put_loop_ext _ _ _ _ _ _ _ e Hpre Hcap E) as [E2 E3].
    rewrite E2. auto.
Qed.

Lemma extends_bind p q : extends p -> extends q ->
  extends (fun s => match p s with Some s1 => q s1 | None => None end).
Proof.
  intros HP HQ d pos e s' Hp H. destruct (p (mkbs d pos)) as [s1|] eqn:E; [|discriminate].
  destruct (HP d pos e s1 Hp E) as [E1 L1]. rewrite E1. destruct s1 as [d1 p1]. cbn [bdat bpos] in *.
  apply HQ; assumption.
Qed.

Lemma extends_some : extends Some.
Proof. intros d pos e s' Hp H. injection H as <-. auto. Qed.

Lemma bput2_ext v1 n1 v2 n2 : extends (fun s => bput2 s v1 n1 v2 n2).
Proof. unfold bput2. apply (extends_bind (fun s => bput s v1 n1) (fun s => bput s v2 n2)); apply bput_ext. Qed.

Lemma bput_uint_ext v : extends (fun s => bput_uint s v).
Proof.
  unfold bput_uint.
  repeat match goal with |- extends (fun s => if ?c then _ else _) => destruct c end; apply bput_ext.
Qed.

Lemma bput_int_ext v : extends (fun s => bput_int s v).
Proof.
  unfold bput_int. cbn zeta. set (dw := if v <? 0 then to_s 64 (- v) else v).
  match goal with |- extends (fun s => match bput s ?a ?n with Some s1 => @?q s1 | None => None end) =>
    apply (extends_bind (fun s => bput s a n) q) end.
  - apply bput_ext.
  - repeat match goal with |- extends (fun s => if ?c then _ else _) => destruct c end;
    first [apply bput_ext | apply bput2_ext].
Qed.

Lemma bput_bytes_ext l : extends (fun s => bput_bytes s l).
Proof.
  induction l as [|c l IH]; [exact extends_some|].
  cbn [bput_bytes]. apply (extends_bind (fun s => bput s c 8)); [apply bput_ext|apply IH].
Qed.

Lemma bput_chars_ext o : extends (fun s => bput_chars s o).
Proof.
  unfold bput_chars. destruct o as [[|c l]|]; try apply bput_ext.
  match goal with |- extends (fun s => match bput s ?a ?n with Some s1 => @?q s1 | None => None end) =>
    apply (extends_bind (fun s => bput s a n) q) end; [apply bput_ext|].
  apply (extends_bind (fun s => bput_uint s (Z.of_nat (length (c :: l))))); [apply bput_uint_ext|apply bput_bytes_ext].
Qed.

Lemma bitat_app d e i : (i < 8 * length d)%nat -> bitat (d ++ e) i = bitat d i.
Proof. intros H. unfold bitat. rewrite app_nth1 by lia. reflexivity. Qed.

Lemma ext_wrc p bs s s' : extends p ->
  (forall t, Forall is_byte (bdat t) -> (bpos t + length bs <= 8 * length (bdat t))%nat ->
     exists t', p t = Some t' /\ wr t t' bs) ->
  Forall is_byte (bdat s) -> (bpos s <= 8 * length (bdat s))%nat ->
  p s = Some s' -> wrc s s' bs.
Proof.
  intros HE HP Hd Hp H. destruct s as [d pos]. cbn [bdat bpos] in *.
  set (e := repeat 0 (length bs)).
  destruct (HE d pos e s' Hp H) as [E1 L1].
  destruct (HP (mkbs (d ++ e) pos)) as (t' & E2 & W).
  { cbn. apply Forall_app. split; [assumption|]. apply Forall_forall. intros x Hx.
    apply repeat_spec in Hx. subst. unfold is_byte; lia. }
  { cbn. rewrite app_length. unfold e. rewrite repeat_length. lia. }
  rewrite E1 in E2. injection E2 as <-.
  destruct W as [A1 A2 A3 A4 A5 A6]. cbn [bdat bpos] in *. rewrite !app_length in A1.
  assert (HL : length (bdat s') = length d) by lia.
  split; [split; cbn [bdat bpos]|assumption].
  - assumption.
  - assumption.
  - apply Forall_app in A3. apply A3.
  - intros i Hi. rewrite <- (bitat_app (bdat s') e) by lia. rewrite A4 by lia. apply bitat_app. lia.
  - intros j Hj. rewrite <- (bitat_app (bdat s') e) by lia. apply A5. assumption.
  - intros k Hk. destruct (lt_dec k (length d)) as [Hlt|Hge].
    + specialize (A6 k Hk). rewrite !app_nth1 in A6 by lia. assumption.
    + rewrite !nth_overflow by lia. reflexivity.
Qed.

Section Wrc.
Variables s s' : bstream.
Hypothesis Hd : Forall is_byte (bdat s).
Hypothesis Hp : (bpos s <= 8 * length (bdat s))%nat.

Lemma bput_wrc v n : (n <= 64)%nat -> bput s v n = Some s' -> wrc s s' (tobits n v).
Proof.
  intros Hn. apply (ext_wrc (fun s => bput s v n)); [apply bput_ext| |assumption|assumption].
  intros t Ht Hl. rewrite tobits_length in Hl. apply bput_spec; assumption.
Qed.

Lemma bput_uint_wrc v : 0 <= v < 2 ^ 32 -> bput_uint s v = Some s' -> wrc s s' (bits_uint v).
Proof.
  intros Hv. apply (ext_wrc (fun s => bput_uint s v)); [apply bput_uint_ext| |assumption|assumption].
  intros t Ht Hl. apply bput_uint_ok; assumption.
Qed.

Lemma bput_int_wrc v : - 2 ^ 63 < v < 2 ^ 63 -> bput_int s v = Some s' -> wrc s s' (bits_int v).
Proof.
  intros Hv. apply (ext_wrc (fun s => bput_int s v)); [apply bput_int_ext| |assumption|assumption].
  intros t Ht Hl. apply bput_int_ok; assumption.
Qed.

Lemma bput_chars_wrc o : match o with Some l => Z.of_nat (length l) < 2 ^ 31 | None => True end ->
  bput_chars s o = Some s' -> wrc s s' (bits_chars o).
Proof.
  intros Ho. apply (ext_wrc (fun s => bput_chars s o)); [apply bput_chars_ext| |assumption|assumption].
  intros t Ht Hl. apply bput_chars_wr; assumption.
Qed.
End Wrc.

Lemma wrc_nil s : Forall is_byte (bdat s) -> (bpos s <= 8 * length (bdat s))%nat -> wrc s s [].
Proof. intros H1 H2. split; [apply wr_nil; assumption|assumption]. Qed.

Lemma wrc_app s s1 s2 b1 b2 : wrc s s1 b1 -> wrc s1 s2 b2 -> wrc s s2 (b1 ++ b2).
Proof. intros [A _] [B C]. split; [eapply wr_app; eassumption|assumption]. Qed.

Lemma wrc_byte s s' bs : wrc s s' bs -> Forall is_byte (bdat s').
Proof. intros [A _]. apply A. Qed.
Lemma wrc_cap s s' bs : wrc s s' bs -> (bpos s' <= 8 * length (bdat s'))%nat.
Proof. intros [_ A]. exact A. Qed.
