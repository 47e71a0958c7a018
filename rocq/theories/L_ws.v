(** Proofs about websocket framing. *)
From Verif Require Import Base S_memory M_memory L_memory S_bits M_bits L_bits S_ws M_ws.
From Coq Require Import ZifyBool ZifyNat.

Lemma Forall_skipn {A} (P : A -> Prop) n l : Forall P l -> Forall P (skipn n l).
Proof. intros H. revert n. induction H; intros [|n]; cbn [skipn]; auto. Qed.
Lemma Forall_firstn {A} (P : A -> Prop) n l : Forall P l -> Forall P (firstn n l).
Proof. intros H. revert n. induction H; intros [|n]; cbn [firstn]; auto. Qed.

(** *** bytes, most significant first *)
Definition be_val (bs : list Z) : Z := le_val (rev bs).

Lemma be_val_bytes n z : 0 <= z < 256 ^ Z.of_nat n -> be_val (be_bytes n z) = z.
Proof. intros H. unfold be_val, be_bytes. rewrite rev_involutive, le_val_bytes. apply Z.mod_small. assumption. Qed.

Lemma be_bytes_val bs n : Forall is_byte bs -> length bs = n -> be_bytes n (be_val bs) = bs.
Proof.
  intros H <-. unfold be_val, be_bytes. rewrite <- (rev_length bs), le_bytes_val.
  - apply rev_involutive.
  - apply Forall_rev. assumption.
Qed.
Lemma be_bytes_length n z : length (be_bytes n z) = n.
Proof. unfold be_bytes. rewrite rev_length. apply le_bytes_length. Qed.
Lemma be_bytes_byte n z : Forall is_byte (be_bytes n z).
Proof. unfold be_bytes. apply Forall_rev. apply le_bytes_byte. Qed.
Lemma be_val_range bs : Forall is_byte bs -> 0 <= be_val bs < 256 ^ Z.of_nat (length bs).
Proof. intros H. unfold be_val. rewrite <- (rev_length bs). apply le_val_bound. apply Forall_rev. assumption. Qed.

(** *** masking *)
Lemma xor_mask k i d : ws_xor k i d = mask_from k i d.
Proof. revert i; induction d as [|b d IH]; intros i; cbn [ws_xor mask_from]; [reflexivity|]. rewrite IH. reflexivity. Qed.
Lemma mask_twice k i d : mask_from k i (mask_from k i d) = d.
Proof.
  revert i; induction d as [|b d IH]; intros i; cbn [mask_from]; [reflexivity|].
  rewrite IH, Z.lxor_assoc, Z.lxor_nilpotent, Z.lxor_0_r. reflexivity.
Qed.
Lemma mask_length k i d : length (mask_from k i d) = length d.
Proof. revert i; induction d as [|b d IH]; intros i; cbn [mask_from length]; [reflexivity|]. rewrite IH. reflexivity. Qed.

Lemma lxor_byte a b : is_byte a -> is_byte b -> is_byte (Z.lxor a b).
Proof.
  unfold is_byte. intros Ha Hb.
  assert (0 <= Z.lxor a b) by (apply Z.lxor_nonneg; lia). split; [assumption|].
  destruct (Z.eq_dec (Z.lxor a b) 0) as [E|E]; [lia|].
  apply Z.log2_lt_cancel. change (Z.log2 256) with 8.
  eapply Z.le_lt_trans; [apply Z.log2_lxor; lia|].
  apply Z.max_lub_lt; (destruct (Z.eq_dec a 0) as [->|]; destruct (Z.eq_dec b 0) as [->|]); try (cbn; lia); apply Z.log2_lt_pow2; lia.
Qed.
Lemma mask_byte k i d : Forall is_byte k -> Forall is_byte d -> Forall is_byte (mask_from k i d).
Proof.
  intros Hk Hd. revert i. induction Hd as [|b d Hb Hd IH]; intros i; cbn [mask_from]; constructor; [|apply IH].
  apply lxor_byte; [assumption|]. destruct (nth_in_or_default (i mod 4) k 0) as [Hi|E].
  - rewrite Forall_forall in Hk. apply Hk. assumption.
  - rewrite E. unfold is_byte. lia.
Qed.

(** *** an abstract parser for one header *)
Record ph := mkph { p_fin : bool; p_rsv : Z; p_op : Z; p_mask : Z; p_form : lenform; p_key : list Z; p_len : Z; p_rest : list Z }.

Definition form_of (sl : Z) : lenform := if sl =? 126 then Len16 else if sl =? 127 then Len64 else Len7.
Definition form_w (f : lenform) : nat := match f with Len7 => 0 | Len16 => 2 | Len64 => 8 end.

Definition phead (d : list Z) : option ph :=
  match d with
  | b0 :: b1 :: r =>
    let sl := b1 mod 128 in
    let w := form_w (form_of sl) in
    let kw := if b1 / 128 =? 1 then 4%nat else 0%nat in
    if Nat.ltb (length r) w then None
    else if Nat.ltb (length (skipn w r)) kw then None
    else
      let n := match form_of sl with Len7 => sl | _ => be_val (firstn w r) end in
      let r2 := skipn kw (skipn w r) in
      if Z.of_nat (length r2) <? n then None
      else Some (mkph (b0 / 128 =? 1) ((b0 / 16) mod 8) (b0 mod 16) (b1 / 128) (form_of sl) (firstn kw (skipn w r)) n r2)
  | _ => None
  end.

Definition parse1 (d : list Z) : option (frame * list Z) :=
  match phead d with
  | None => None
  | Some p =>
    let wire := firstn (Z.to_nat (p_len p)) (p_rest p) in
    let masked := p_mask p =? 1 in
    Some (mkframe (p_fin p) (p_rsv p) (p_op p) (if masked then Some (p_key p) else None) (p_form p)
            (if masked then mask_from (p_key p) 0 wire else wire),
          skipn (Z.to_nat (p_len p)) (p_rest p))
  end.

Lemma parse1_sound d f r : Forall is_byte d -> parse1 d = Some (f, r) -> frame_wf f /\ d = frame_bytes f ++ r.
Proof.
  intros Hd. unfold parse1. destruct (phead d) as [p|] eqn:Ep; [|discriminate]. intros [= <- <-].
  unfold phead in Ep. destruct d as [|b0 [|b1 d]]; try discriminate.
  apply Forall_cons_iff in Hd. destruct Hd as [H0 Hd]. apply Forall_cons_iff in Hd. destruct Hd as [H1 Hd].
  unfold is_byte in H0, H1.
  assert (M1 := Z.mod_pos_bound b1 128 ltac:(lia)). assert (D1 := Z.div_mod b1 128 ltac:(lia)).
  set (sl := b1 mod 128) in *. set (mk := b1 / 128) in *.
  assert (Hmk : mk = 0 \/ mk = 1) by lia.
  set (w := form_w (form_of sl)) in *. set (kw := if mk =? 1 then 4%nat else 0%nat) in *.
  destruct (Nat.ltb_spec (length d) w); [discriminate|].
  destruct (Nat.ltb_spec (length (skipn w d)) kw); [discriminate|].
  set (n := match form_of sl with Len7 => sl | _ => be_val (firstn w d) end) in *.
  destruct (Z.ltb_spec (Z.of_nat (length (skipn kw (skipn w d)))) n) as [|Hn]; [discriminate|].
  injection Ep as <-. cbn [p_fin p_rsv p_op p_mask p_form p_key p_len p_rest].
  set (r2 := skipn kw (skipn w d)) in *. set (key := firstn kw (skipn w d)) in *.
  assert (Hb2 : Forall is_byte r2) by (apply Forall_skipn, Forall_skipn; assumption).
  assert (Hk : Forall is_byte key) by (apply Forall_firstn, Forall_skipn; assumption).
  assert (Lk : length key = kw) by (unfold key; rewrite firstn_length; lia).
  assert (Hn0 : 0 <= n).
  { unfold n. destruct (form_of sl); [lia| |]; apply be_val_range; apply Forall_firstn; assumption. }
  set (wire := firstn (Z.to_nat n) r2) in *.
  assert (Lw : Z.of_nat (length wire) = n) by (unfold wire; rewrite firstn_length; lia).
  assert (Hw : Forall is_byte wire) by (apply Forall_firstn; assumption).
  set (dat := if mk =? 1 then mask_from key 0 wire else wire).
  assert (Ld : length dat = length wire) by (unfold dat; destruct (mk =? 1); [apply mask_length|reflexivity]).
  split.
  - unfold frame_wf. cbn [f_rsv f_op f_data f_key f_form].
    split; [apply Z.mod_pos_bound; lia|]. split; [apply Z.mod_pos_bound; lia|].
    split; [unfold dat; destruct (mk =? 1); [apply mask_byte|]; assumption|].
    split; [destruct (mk =? 1) eqn:E; [|exact I]; unfold kw in Lk; auto|].
    fold dat. rewrite Ld, Lw. unfold n, w. unfold form_of in *.
    destruct (Z.eqb_spec sl 126); [|destruct (Z.eqb_spec sl 127); [|lia]].
    + assert (R := be_val_range (firstn 2 d) ltac:(apply Forall_firstn; assumption)).
      rewrite firstn_length in R. cbn [form_w] in *. unfold w in H. cbn [form_w] in H.
      replace (Nat.min 2 (length d)) with 2%nat in R by lia. change (256 ^ Z.of_nat 2) with 65536 in R. cbn [form_w]. lia.
    + assert (R := be_val_range (firstn 8 d) ltac:(apply Forall_firstn; assumption)).
      rewrite firstn_length in R. cbn [form_w] in *. unfold w in H. cbn [form_w] in H.
      replace (Nat.min 8 (length d)) with 8%nat in R by lia. change (256 ^ Z.of_nat 8) with (2 ^ 64) in R. cbn [form_w]. lia.
  - unfold frame_bytes. cbn [f_fin f_rsv f_op f_data f_key f_form]. fold dat. rewrite Ld, Lw.
    cbn [app].
    replace ((if b0 / 128 =? 1 then 128 else 0) + 16 * ((b0 / 16) mod 8) + b0 mod 16) with b0.
    2:{ assert (A1 := Z.div_mod b0 16 ltac:(lia)). assert (A2 := Z.div_mod (b0 / 16) 8 ltac:(lia)).
        rewrite Z.div_div in A2 by lia. change (16 * 8) with 128 in A2.
        assert (b0 / 128 = 0 \/ b0 / 128 = 1) by (assert (0 <= b0 / 128 < 2); [split; [apply Z.div_pos|apply Z.div_lt_upper_bound]; lia|lia]).
        destruct (Z.eqb_spec (b0 / 128) 1); lia. }
    f_equal.
    replace (b1 :: d) with (b1 :: firstn w d ++ key ++ wire ++ skipn (Z.to_nat n) r2).
    2:{ unfold wire. rewrite (firstn_skipn (Z.to_nat n) r2). unfold key, r2. rewrite (firstn_skipn kw). rewrite firstn_skipn. reflexivity. }
    assert (Ek : (if match (if mk =? 1 then Some key else None) with Some _ => true | None => false end then 128 else 0)
                 = 128 * mk) by (destruct (Z.eqb_spec mk 1); lia).
    replace (match (if mk =? 1 then Some key else None) with Some _ => 128 | None => 0 end) with (128 * mk)
      by (destruct (Z.eqb_spec mk 1); lia).
    replace (match (if mk =? 1 then Some key else None) with Some k => k ++ mask_from k 0 dat | None => dat end)
      with (key ++ wire).
    2:{ unfold dat. destruct (Z.eqb_spec mk 1); [rewrite mask_twice; reflexivity|].
        unfold kw in Lk. destruct (Z.eqb_spec mk 1); [contradiction|]. destruct key; [reflexivity|discriminate]. }
    unfold n, w, form_of in *. destruct (Z.eqb_spec sl 126) as [E|E]; [|destruct (Z.eqb_spec sl 127) as [E'|E']];
      cbn [form_w app] in *.
    + rewrite be_bytes_val by (try apply Forall_firstn; try rewrite firstn_length; auto; lia).
      replace (128 * mk + 126) with b1 by lia. rewrite <- !app_assoc. reflexivity.
    + rewrite be_bytes_val by (try apply Forall_firstn; try rewrite firstn_length; auto; lia).
      replace (128 * mk + 127) with b1 by lia. rewrite <- !app_assoc. reflexivity.
    + replace (128 * mk + sl) with b1 by lia. rewrite <- !app_assoc. reflexivity.
Qed.

Lemma parse1_enc f r : frame_wf f -> parse1 (frame_bytes f ++ r) = Some (f, r).
Proof.
  intros (Hr & Ho & Hd & Hk & Hl). destruct f as [fin rsv op key form dat]. cbn [f_fin f_rsv f_op f_data f_key f_form] in *.
  unfold frame_bytes. cbn [f_fin f_rsv f_op f_data f_key f_form].
  set (n := Z.of_nat (length dat)) in *. set (m := match key with Some _ => 128 | None => 0 end).
  set (b0 := (if fin then 128 else 0) + 16 * rsv + op).
  set (payload := match key with Some k => k ++ mask_from k 0 dat | None => dat end).
  set (sl := match form with Len7 => n | Len16 => 126 | Len64 => 127 end).
  set (lb := match form with Len7 => [] | Len16 => be_bytes 2 n | Len64 => be_bytes 8 n end).
  assert (Hn : 0 <= n) by lia.
  replace (([b0] ++ match form with Len7 => [m + n] | Len16 => (m + 126) :: be_bytes 2 n | Len64 => (m + 127) :: be_bytes 8 n end ++ payload) ++ r)
    with (b0 :: (m + sl) :: lb ++ payload ++ r) by (unfold sl, lb; destruct form; cbn [app]; rewrite <- ?app_assoc; reflexivity).
  assert (Hsl : 0 <= sl < 128) by (unfold sl; destruct form; lia).
  assert (E1 : (m + sl) mod 128 = sl).
  { unfold m. destruct key; [rewrite <- (Z.mod_add (128 + sl) (-1)) by lia; rewrite Z.mod_small; lia|rewrite Z.mod_small; lia]. }
  assert (E2 : (m + sl) / 128 = if key then 1 else 0).
  { unfold m. destruct key; [|rewrite Z.div_small; lia]. replace (128 + sl) with (1 * 128 + sl) by lia. rewrite Z.div_add_l, Z.div_small; lia. }
  assert (E3 : form_of sl = form).
  { unfold form_of, sl. destruct form; [|reflexivity|reflexivity]. destruct (Z.eqb_spec n 126), (Z.eqb_spec n 127); lia || reflexivity. }
  assert (E4 : length lb = form_w form) by (unfold lb; destruct form; cbn [form_w]; rewrite ?be_bytes_length; reflexivity).
  unfold parse1, phead. rewrite E1, E2, E3.
  destruct (Nat.ltb_spec (length (lb ++ payload ++ r)) (form_w form)); [rewrite app_length in *; lia|].
  replace (skipn (form_w form) (lb ++ payload ++ r)) with (payload ++ r) by (rewrite <- E4, skipn_app_exact; reflexivity).
  replace (firstn (form_w form) (lb ++ payload ++ r)) with lb by (rewrite <- E4, firstn_app_exact; reflexivity).
  set (kb := match key with Some k => k | None => [] end).
  set (wire := match key with Some k => mask_from k 0 dat | None => dat end).
  assert (Ep : payload ++ r = kb ++ wire ++ r) by (unfold payload, kb, wire; destruct key; cbn [app]; rewrite <- ?app_assoc; reflexivity).
  rewrite Ep.
  assert (Lk : length kb = if (if key then 1 else 0) =? 1 then 4%nat else 0%nat) by (unfold kb; destruct key; cbn; [tauto|reflexivity]).
  rewrite <- Lk. destruct (Nat.ltb_spec (length (kb ++ wire ++ r)) (length kb)); [rewrite app_length in *; lia|].
  rewrite skipn_app_exact, firstn_app_exact.
  replace (match form with Len7 => sl | _ => be_val lb end) with n.
  2:{ unfold sl, lb. destruct form; [reflexivity| |]; rewrite be_val_bytes; auto; cbn; lia. }
  assert (Lw : length wire = length dat) by (unfold wire; destruct key; [apply mask_length|reflexivity]).
  rewrite app_length. destruct (Z.ltb_spec (Z.of_nat (length wire + length r)) n); [lia|].
  cbn [p_fin p_rsv p_op p_mask p_form p_key p_len p_rest].
  replace (Z.to_nat n) with (length wire) by lia. rewrite firstn_app_exact, skipn_app_exact.
  f_equal. f_equal.
  replace (b0 / 128 =? 1) with fin.
  2:{ unfold b0. destruct fin.
      - replace (128 + 16 * rsv + op) with (1 * 128 + (16 * rsv + op)) by lia. rewrite Z.div_add_l, Z.div_small by lia. reflexivity.
      - rewrite Z.div_small by lia. reflexivity. }
  replace (b0 / 16 mod 8) with rsv.
  2:{ unfold b0. destruct fin.
      - replace (128 + 16 * rsv + op) with ((8 + rsv) * 16 + op) by lia. rewrite Z.div_add_l, Z.div_small by lia.
        replace (8 + rsv + 0) with (rsv + 1 * 8) by lia. rewrite Z.mod_add, Z.mod_small by lia. reflexivity.
      - replace (0 + 16 * rsv + op) with (rsv * 16 + op) by lia. rewrite Z.div_add_l, (Z.div_small op) by lia.
        rewrite Z.mod_small; lia. }
  replace (b0 mod 16) with op.
  2:{ unfold b0. destruct fin.
      - replace (128 + 16 * rsv + op) with (op + (8 + rsv) * 16) by lia. rewrite Z.mod_add, Z.mod_small by lia. reflexivity.
      - replace (0 + 16 * rsv + op) with (op + rsv * 16) by lia. rewrite Z.mod_add, Z.mod_small by lia. reflexivity. }
  unfold kb, wire. destruct key; cbn; [rewrite mask_twice|]; reflexivity.
Qed.

(** *** reading whole bytes *)
Lemma nth_skipn' {A} (d : A) k l i : nth i (skipn k l) d = nth (k + i) l d.
Proof. revert l; induction k as [|k IH]; intros [|x l]; cbn [skipn Nat.add]; try reflexivity; [destruct i; reflexivity|]. apply IH. Qed.

Lemma skipn_cons_nth k (l : list Z) : (k < length l)%nat -> skipn k l = nth k l 0 :: skipn (S k) l.
Proof. revert l; induction k as [|k IH]; intros [|x l] H; cbn [length] in H; try lia; [reflexivity|]. cbn [skipn nth]. rewrite IH by lia. reflexivity. Qed.

Lemma nth_byte (d : list Z) k : Forall is_byte d -> is_byte (nth k d 0).
Proof.
  intros H. destruct (nth_in_or_default k d 0) as [Hi|E].
  - rewrite Forall_forall in H. auto.
  - rewrite E. unfold is_byte. lia.
Qed.

Lemma le_val_app a b : le_val (a ++ b) = le_val a + 256 ^ Z.of_nat (length a) * le_val b.
Proof.
  induction a as [|x a IH]; [cbn [app length le_val]; change (256 ^ Z.of_nat 0) with 1; lia|].
  cbn [app le_val length]. rewrite IH, pow256_succ. lia.
Qed.

Lemma be_val_snoc bs b : be_val (bs ++ [b]) = be_val bs * 256 + b.
Proof. unfold be_val. rewrite rev_app_distr. cbn [rev app le_val]. lia. Qed.

Lemma bval_bytes d n : Forall is_byte d -> forall k, (k + n <= length d)%nat ->
  bval d (8 * k) (8 * n) = be_val (firstn n (skipn k d)).
Proof.
  intros Hd. induction n as [|n IH]; intros k Hk; [reflexivity|].
  replace (8 * S n)%nat with (8 * n + 8)%nat by lia. rewrite bval_split, IH by lia.
  replace (8 * k + 8 * n)%nat with (8 * (k + n))%nat by lia.
  rewrite (byte_bits (nth (k + n) d 0)) by (auto using nth_byte).
  replace (firstn (S n) (skipn k d)) with (firstn n (skipn k d) ++ [nth (k + n) d 0]).
  - rewrite be_val_snoc. change (2 ^ Z.of_nat 8) with 256. reflexivity.
  - replace (skipn k d) with (firstn n (skipn k d) ++ nth (k + n) d 0 :: skipn (S (k + n)) d) at 2.
    + rewrite firstn_app. rewrite firstn_length, skipn_length.
      replace (S n - Nat.min n (length d - k))%nat with 1%nat by lia.
      rewrite (firstn_all2 (firstn n (skipn k d))) by (rewrite firstn_length, skipn_length; lia). reflexivity.
    + rewrite <- skipn_cons_nth by lia. replace (k + n)%nat with (n + k)%nat by lia.
      rewrite <- skipn_skipn'. apply firstn_skipn.
Qed.

Lemma bget_bytes d k n : Forall is_byte d -> (1 <= n <= 8)%nat -> (k + n <= length d)%nat ->
  bget (mkbs d (8 * k)) (8 * n) = Some (be_val (firstn n (skipn k d)), mkbs d (8 * (k + n))).
Proof.
  intros Hd Hn Hk. rewrite bget_spec by (cbn [bdat bpos]; auto; lia). cbn [bdat bpos].
  rewrite bval_bytes by auto. do 3 f_equal. lia.
Qed.

(** the two header bytes *)
Lemma bget_b0 d k (b0 := nth k d 0) : Forall is_byte d -> (k < length d)%nat ->
  bget (mkbs d (8 * k)) 1 = Some (b0 / 128, mkbs d (8 * k + 1)) /\
  bget (mkbs d (8 * k + 1)) 3 = Some ((b0 / 16) mod 8, mkbs d (8 * k + 4)) /\
  bget (mkbs d (8 * k + 4)) 4 = Some (b0 mod 16, mkbs d (8 * (k + 1))) /\
  bget (mkbs d (8 * k + 1)) 7 = Some (b0 mod 128, mkbs d (8 * (k + 1))).
Proof.
  intros Hd Hk.
  assert (B : bval d (8 * k) 8 = b0) by (apply byte_bits; [apply nth_byte; assumption|reflexivity]).
  assert (S1 := bval_split d (8 * k) 1 7). assert (S2 := bval_split d (8 * k + 1) 3 4).
  cbn [Nat.add] in S1, S2. rewrite B in S1.
  assert (R1 := bval_range d (8 * k) 1). assert (R2 := bval_range d (8 * k + 1) 3).
  assert (R3 := bval_range d (8 * k + 1 + 3) 4). assert (R4 := bval_range d (8 * k + 1) 7).
  replace (8 * k + 1 + 3)%nat with (8 * k + 4)%nat in * by lia.
  change (2 ^ Z.of_nat 1) with 2 in *. change (2 ^ Z.of_nat 3) with 8 in *.
  change (2 ^ Z.of_nat 4) with 16 in *. change (2 ^ Z.of_nat 7) with 128 in *.
  set (x1 := bval d (8 * k) 1) in *. set (x3 := bval d (8 * k + 1) 3) in *.
  set (x4 := bval d (8 * k + 4) 4) in *. set (x7 := bval d (8 * k + 1) 7) in *.
  rewrite !bget_spec by (cbn [bdat bpos]; auto; lia). cbn [bdat bpos]. fold x1 x3 x4 x7.
  assert (b0 / 128 = x1) by (rewrite S1, Z.div_add_l, Z.div_small; lia).
  assert (b0 mod 128 = x7) by (rewrite S1, Z.add_comm, Z.mod_add, Z.mod_small; lia).
  assert (E16 : b0 = (x1 * 8 + x3) * 16 + x4) by lia.
  assert (b0 mod 16 = x4) by (rewrite E16, Z.add_comm, Z.mod_add, Z.mod_small; lia).
  assert ((b0 / 16) mod 8 = x3).
  { rewrite E16, Z.div_add_l, (Z.div_small x4) by lia. rewrite Z.add_0_r, Z.add_comm, Z.mod_add, Z.mod_small; lia. }
  repeat split; f_equal; f_equal; try (f_equal; lia); lia.
Qed.

Lemma live_size m : length (mem_live m) = mem_get_size m.
Proof. unfold mem_live, mem_get_size. apply skipn_length. Qed.

Lemma bval_key d k : Forall is_byte d -> (k + 4 <= length d)%nat ->
  exists v, ws_getkey true (mkbs d (8 * k)) = Some (v, mkbs d (8 * (k + 4))) /\
  ws_getkey false (mkbs d (8 * k)) = Some (firstn 4 (skipn k d), mkbs d (8 * (k + 4))) /\ v = [].
Proof.
  intros Hd Hk. exists []. unfold ws_getkey.
  assert (G := bget_bytes d k 4 Hd ltac:(lia) ltac:(lia)). change (8 * 4)%nat with 32%nat in G. rewrite G.
  split; [reflexivity|]. split; [|reflexivity].
  assert (G1 : forall q, (q < length d)%nat -> bget (mkbs d (8 * q)) 8 = Some (nth q d 0, mkbs d (8 * (q + 1)))).
  { intros q Hq. assert (G1 := bget_bytes d q 1 Hd ltac:(lia) ltac:(lia)). change (8 * 1)%nat with 8%nat in G1. rewrite G1.
    rewrite skipn_cons_nth by lia. cbn [firstn]. unfold be_val. cbn [rev app le_val]. do 2 f_equal. lia. }
  rewrite (G1 k), (G1 (k + 1)%nat), (G1 (k + 1 + 1)%nat), (G1 (k + 1 + 1 + 1)%nat) by lia.
  do 4 (rewrite skipn_cons_nth by lia; rewrite firstn_cons). rewrite firstn_O. 
  replace (k + 1)%nat with (S k) by lia. replace (S k + 1)%nat with (S (S k)) by lia.
  replace (S (S k) + 1)%nat with (S (S (S k))) by lia. replace (S (S (S k)) + 1)%nat with (k + 4)%nat by lia. reflexivity.
Qed.

Lemma header_spec check d k m first op : Forall is_byte d -> mem_ok m -> mem_live m = skipn k d -> (k <= length d)%nat ->
  match phead (mem_live m) with
  | None => ws_header check (mkbs d (8 * k)) m first op = Some None
  | Some p => exists m' k',
      ws_header check (mkbs d (8 * k)) m first op =
        Some (Some (mkwh (if p_fin p then 1 else 0) (if first then p_op p else op) (p_mask p)
                      (if check then [] else p_key p) (p_len p) (mkbs d (8 * k')) m'))
      /\ mem_ok m' /\ mem_live m' = p_rest p /\ mem_live m' = skipn k' d /\ (k + 2 <= k' <= length d)%nat
      /\ 0 <= p_len p <= Z.of_nat (length (p_rest p)) /\ (p_mask p = 0 \/ p_mask p = 1)
      /\ length (mbuf m') = length (mbuf m)
  end.
Proof.
  intros Hd Hok Hl Hk.
  assert (Sz := live_size m). rewrite Hl, skipn_length in Sz.
  unfold ws_header. destruct (Nat.ltb_spec (mem_get_size m) 2) as [Hs|Hs].
  { destruct (mem_live m) as [|b0 [|b1 r]] eqn:E; cbn [phead]; try reflexivity.
    assert (length (skipn k d) = length (b0 :: b1 :: r)) by (rewrite Hl; reflexivity).
    rewrite skipn_length in *. cbn [length] in *. lia. }
  destruct (bget_b0 d k Hd ltac:(lia)) as (G1 & G2 & G3 & _). rewrite G1, G2, G3.
  destruct (bget_b0 d (k + 1) Hd ltac:(lia)) as (G4 & _ & _ & G5). rewrite G4, G5.
  replace (k + 1 + 1)%nat with (k + 2)%nat by lia.
  rewrite Hl, skipn_cons_nth by lia. rewrite (skipn_cons_nth (S k)) by lia. cbn [phead].
  replace (S k) with (k + 1)%nat by lia.  replace (S (k + 1)) with (k + 2)%nat by lia.
  assert (B0 := nth_byte d k Hd). assert (B1 := nth_byte d (k + 1) Hd). unfold is_byte in B0, B1.
  set (b0 := nth k d 0) in *. set (b1 := nth (k + 1) d 0) in *. clearbody b0 b1.
  assert (Hfin : b0 / 128 = if b0 / 128 =? 1 then 1 else 0).
  { assert (0 <= b0 / 128 < 2) by (split; [apply Z.div_pos|apply Z.div_lt_upper_bound]; lia).
    destruct (Z.eqb_spec (b0 / 128) 1); lia. }
  assert (Hmk : b1 / 128 = 0 \/ b1 / 128 = 1).
  { assert (0 <= b1 / 128 < 2) by (split; [apply Z.div_pos|apply Z.div_lt_upper_bound]; lia). lia. }
  assert (Hslr := Z.mod_pos_bound b1 128 ltac:(lia)).
  set (sl := b1 mod 128) in *. set (mk := b1 / 128) in *.
  destruct (mem_move_spec m 2 Hok) as [Ok2 L2]. rewrite Hl, skipn_skipn' in L2.
  replace (2 + k)%nat with (k + 2)%nat in L2 by lia.
  assert (Lb2 : length (mbuf (mem_move m 2)) = length (mbuf m)) by (unfold mem_move; destruct (Nat.leb _ _); reflexivity).
  set (m2 := mem_move m 2) in *. assert (Sz2 := live_size m2). rewrite L2, skipn_length in Sz2.
  set (r := skipn (k + 2) d) in *.
  set (w := form_w (form_of sl)) in *.
  assert (Lr : length r = (length d - (k + 2))%nat) by (unfold r; apply skipn_length).
  (* the length field *)
  assert (HL : (if sl =? 126 then
                 if Nat.ltb (mem_get_size m2) 2 then Some None
                 else let? (v, s) := bget (mkbs d (8 * (k + 2))) 16 in Some (Some (v, s, mem_move m2 2))
               else if sl =? 127 then
                 if Nat.ltb (mem_get_size m2) 8 then Some None
                 else let? (v, s) := bget (mkbs d (8 * (k + 2))) 64 in Some (Some (v, s, mem_move m2 8))
               else Some (Some (sl, mkbs d (8 * (k + 2)), m2)))
      = Some (if Nat.ltb (length r) w then None
              else Some (match form_of sl with Len7 => sl | _ => be_val (firstn w r) end, mkbs d (8 * (k + 2 + w)),
                         match form_of sl with Len7 => m2 | _ => mem_move m2 w end))).
  { unfold w, form_of. destruct (Z.eqb_spec sl 126); [|destruct (Z.eqb_spec sl 127)]; cbn [form_w].
    - rewrite <- Sz2, Lr. destruct (Nat.ltb_spec (length d - (k + 2)) 2); [reflexivity|].
      assert (G := bget_bytes d (k + 2) 2 Hd ltac:(lia) ltac:(lia)). change (8 * 2)%nat with 16%nat in G. rewrite G. reflexivity.
    - rewrite <- Sz2, Lr. destruct (Nat.ltb_spec (length d - (k + 2)) 8); [reflexivity|].
      assert (G := bget_bytes d (k + 2) 8 Hd ltac:(lia) ltac:(lia)). change (8 * 8)%nat with 64%nat in G. rewrite G. reflexivity.
    - rewrite Nat.add_0_r. destruct (length r); reflexivity. }
  rewrite HL. clear HL.
  destruct (Nat.ltb_spec (length r) w) as [|Hw]; [reflexivity|].
  set (n := match form_of sl with Len7 => sl | _ => be_val (firstn w r) end).
  assert (Hn0 : 0 <= n).
  { unfold n. destruct (form_of sl); [lia| |]; apply be_val_range; apply Forall_firstn; unfold r; apply Forall_skipn; assumption. }
  set (m3 := match form_of sl with Len7 => m2 | _ => mem_move m2 w end).
  assert (H3 : mem_ok m3 /\ mem_live m3 = skipn w r /\ length (mbuf m3) = length (mbuf m)).
  { destruct (mem_move_spec m2 w Ok2) as [A B].
    assert (length (mbuf (mem_move m2 w)) = length (mbuf m2)) by (unfold mem_move; destruct (Nat.leb _ _); reflexivity).
    unfold m3. destruct (form_of sl) eqn:Ef; unfold w in *; cbn [form_w] in *; rewrite ?L2 in *; auto.
    - split; [assumption|]. split; [assumption|lia].
    - split; [assumption|]. split; [assumption|lia]. }
  destruct H3 as (Ok3 & L3 & Lb3).
  assert (Sz3 := live_size m3). rewrite L3 in Sz3. rewrite <- Sz3.
  set (kw := if mk =? 1 then 4%nat else 0%nat) in *.
  assert (Er : skipn w r = skipn (k + 2 + w) d) by (unfold r; rewrite skipn_skipn'; f_equal; lia).
  assert (Lr3 : length (skipn w r) = (length d - (k + 2 + w))%nat) by (rewrite Er; apply skipn_length).
  assert (HK : (if mk =? 1 then
                   if Nat.ltb (length (skipn w r)) 4 then Some None
                   else let? (k, s) := ws_getkey check (mkbs d (8 * (k + 2 + w))) in Some (Some (k, s, mem_move m3 4))
                 else Some (Some ([], mkbs d (8 * (k + 2 + w)), m3)))
      = Some (if Nat.ltb (length (skipn w r)) kw then None
              else Some (if check then [] else firstn kw (skipn w r), mkbs d (8 * (k + 2 + w + kw)),
                         if mk =? 1 then mem_move m3 4 else m3))).
  { unfold kw. destruct (Z.eqb_spec mk 1).
    - destruct (Nat.ltb_spec (length (skipn w r)) 4); [reflexivity|].
      destruct (bval_key d (k + 2 + w) Hd ltac:(lia)) as (v & K1 & K2 & ->).
      destruct check; [rewrite K1|rewrite K2]; rewrite ?Er; reflexivity.
    - rewrite Nat.add_0_r, firstn_O. destruct (length (skipn w r)), check; reflexivity. }
  rewrite HK. clear HK.
  destruct (Nat.ltb_spec (length (skipn w r)) kw) as [|Hkw]; [reflexivity|].
  set (m4 := if mk =? 1 then mem_move m3 4 else m3).
  assert (H4 : mem_ok m4 /\ mem_live m4 = skipn kw (skipn w r) /\ length (mbuf m4) = length (mbuf m)).
  { destruct (mem_move_spec m3 4 Ok3) as [A B].
    assert (length (mbuf (mem_move m3 4)) = length (mbuf m3)) by (unfold mem_move; destruct (Nat.leb _ _); reflexivity).
    unfold m4, kw. destruct (mk =? 1); [|rewrite skipn_O; auto]. rewrite B, L3. split; [assumption|]. split; [reflexivity|lia]. }
  destruct H4 as (Ok4 & L4 & Lb4).
  rewrite <- (live_size m4), L4.
  destruct (Z.ltb_spec (Z.of_nat (length (skipn kw (skipn w r)))) n) as [|Hfit]; [reflexivity|].
  cbn [p_fin p_rsv p_op p_mask p_form p_key p_len p_rest].
  exists m4, (k + 2 + w + kw)%nat. rewrite <- Hfin.
  split; [reflexivity|]. split; [assumption|]. split; [assumption|].
  split; [rewrite L4, Er, skipn_skipn'; f_equal; lia|]. split; [lia|]. split; [lia|]. split; assumption.
Qed.

(** *** messages *)
Fixpoint pmsg (fuel : nat) (d : list Z) : option (list frame * list Z) :=
  match fuel with
  | O => None
  | S fuel' =>
    match parse1 d with
    | None => None
    | Some (f, r) =>
      if f_fin f then Some ([f], r)
      else match pmsg fuel' r with Some (fs, r') => Some (f :: fs, r') | None => None end
    end
  end.

Lemma frame_bytes_len f : (2 <= length (frame_bytes f))%nat.
Proof. unfold frame_bytes. rewrite !app_length. destruct (f_form f); cbn [length]; lia. Qed.

Lemma parse1_bytes d f r : Forall is_byte d -> parse1 d = Some (f, r) ->
  Forall is_byte r /\ (length r + 2 <= length d)%nat.
Proof.
  intros Hd H. destruct (parse1_sound _ _ _ Hd H) as [W E]. subst d. apply Forall_app in Hd.
  split; [tauto|]. rewrite app_length. assert (L := frame_bytes_len f). lia.
Qed.

Lemma pmsg_sound fuel : forall d fs r, Forall is_byte d -> pmsg fuel d = Some (fs, r) -> message fs /\ d = message_bytes fs ++ r.
Proof.
  induction fuel as [|fuel IH]; intros d fs r Hd H; [discriminate|]. cbn [pmsg] in H.
  destruct (parse1 d) as [[f r1]|] eqn:E; [|discriminate].
  destruct (parse1_sound _ _ _ Hd E) as [W E1]. destruct (parse1_bytes _ _ _ Hd E) as [Hr _].
  destruct (f_fin f) eqn:Ef.
  - injection H as <- <-. split; [apply msg_last; assumption|]. cbn [message_bytes flat_map]. rewrite app_nil_r. assumption.
  - destruct (pmsg fuel r1) as [[fs1 r2]|] eqn:E2; [|discriminate]. injection H as <- <-.
    destruct (IH _ _ _ Hr E2) as [M E3]. split; [apply msg_more; assumption|].
    cbn [message_bytes flat_map]. rewrite E1, E3, <- app_assoc. reflexivity.
Qed.

Lemma pmsg_enc fs : message fs -> forall fuel r, (length (message_bytes fs) < fuel)%nat -> pmsg fuel (message_bytes fs ++ r) = Some (fs, r).
Proof.
  induction 1 as [f W Hf|f fs W Hf M IH]; intros fuel r Hl; (destruct fuel as [|fuel]; [lia|]);
    cbn [message_bytes flat_map pmsg] in *; rewrite <- app_assoc, parse1_enc, Hf by assumption; [reflexivity|].
  assert (L := frame_bytes_len f). rewrite app_length in Hl.
  change (flat_map frame_bytes fs) with (message_bytes fs) in *. rewrite IH by lia. reflexivity.
Qed.

Lemma bmove_small d k n : (Z.of_nat (length d) < 2 ^ 28) -> (k + n <= length d)%nat ->
  bmove_bytes (mkbs d (8 * k)) n = mkbs d (8 * (k + n)).
Proof.
  intros Hl Hk. unfold bmove_bytes. cbn [bdat bpos]. f_equal.
  assert (Z.of_nat (length d) < 268435456) by exact Hl.
  rewrite !to_s_small, to_u_small.
  - destruct (Z.ltb_spec (Z.of_nat (8 * k) + Z.of_nat n * 8) 0); [lia|].
    rewrite Z.gtb_ltb. destruct (Z.ltb_spec (Z.of_nat (length d) * 8) (Z.of_nat (8 * k) + Z.of_nat n * 8)); lia.
  - split; [lia|]. change (2 ^ 32) with 4294967296. lia.
  - lia.
  - rewrite to_u_small by (split; [lia|]; change (2 ^ 32) with 4294967296; lia). change (2 ^ (32 - 1)) with 2147483648. lia.
  - lia.
  - change (2 ^ (32 - 1)) with 2147483648. lia.
Qed.

Lemma mem_move_buf m n : length (mbuf (mem_move m n)) = length (mbuf m).
Proof. unfold mem_move; destruct (Nat.leb _ _); reflexivity. Qed.

Lemma check_loop_spec d : Forall is_byte d -> Z.of_nat (length d) < 2 ^ 28 -> forall fuel k m first op,
  mem_ok m -> mem_live m = skipn k d -> (k <= length d)%nat -> (length (mem_live m) < fuel)%nat ->
  ws_check_loop fuel (mkbs d (8 * k)) m first op = Some (match pmsg fuel (mem_live m) with Some _ => true | None => false end).
Proof.
  intros Hd Hs. induction fuel as [|fuel IH]; intros k m first op Hok Hl Hk Hf; [lia|].
  cbn [ws_check_loop pmsg]. assert (H := header_spec true d k m first op Hd Hok Hl Hk).
  unfold parse1. destruct (phead (mem_live m)) as [p|]; [|rewrite H; reflexivity].
  destruct H as (m' & k' & H & Hok' & L1 & L2 & Hk' & Hp & _ & _). rewrite H. cbn [h_fin h_op h_mask h_key h_len h_st h_mem f_fin].
  destruct (p_fin p); [reflexivity|]. cbn [Z.eqb].
  assert (Lr : length (p_rest p) = (length d - k')%nat) by (rewrite <- L1, L2; apply skipn_length).
  destruct (mem_move_spec m' (Z.to_nat (p_len p)) Hok') as [A B].
  rewrite bmove_small by lia. rewrite L1 in B.
  rewrite IH.
  - rewrite B. destruct (pmsg fuel _) as [[? ?]|]; reflexivity.
  - assumption.
  - rewrite B, <- L1, L2, skipn_skipn'. f_equal. lia.
  - lia.
  - rewrite B, skipn_length, Lr. rewrite Hl, skipn_length in Hf. lia.
Qed.

Lemma append_spec out h n data : mem_ok out -> h_len h = Z.of_nat n -> (n <= length (mem_live (h_mem h)))%nat ->
  data = (if h_mask h =? 1 then mask_from (h_key h) 0 (firstn n (mem_live (h_mem h))) else firstn n (mem_live (h_mem h))) ->
  mem_ok (ws_append out h) /\ mem_live (ws_append out h) = mem_live out ++ data.
Proof.
  intros Hok Hn Hl ->. unfold ws_append. rewrite Hn, Nat2Z.id.
  set (wire := firstn n (mem_live (h_mem h))).
  destruct (mem_cat_spec out wire Hok) as [[A1 A2] B]. set (out1 := mem_cat out wire) in *.
  destruct (h_mask h =? 1); [|split; [split|]; assumption].
  unfold mem_ok, msize, mem_live in *. cbn [mbuf moff mmax].
  set (o := mem_get_size out).
  assert (Ho : length (skipn (moff out) (mbuf out)) = o) by (unfold o, mem_get_size; apply skipn_length).
  assert (E : mbuf out1 = firstn (moff out1) (mbuf out1) ++ skipn (moff out) (mbuf out) ++ wire).
  { rewrite <- B. symmetry. apply firstn_skipn. }
  assert (Lf : length (firstn (moff out1) (mbuf out1)) = moff out1) by (rewrite firstn_length; lia).
  assert (E1 : firstn (moff out1 + o) (mbuf out1) = firstn (moff out1) (mbuf out1) ++ skipn (moff out) (mbuf out)).
  { rewrite E at 1. rewrite app_assoc. rewrite firstn_app_le by (rewrite app_length; lia).
    apply firstn_all2. rewrite app_length. lia. }
  assert (E2 : skipn (moff out1 + o) (mbuf out1) = wire).
  { rewrite E. rewrite app_assoc. replace (moff out1 + o)%nat with (length (firstn (moff out1) (mbuf out1) ++ skipn (moff out) (mbuf out))) by (rewrite app_length; lia).
    apply skipn_app_exact. }
  rewrite E1, E2, xor_mask.
  assert (Lall : length (mbuf out1) = (moff out1 + o + length wire)%nat).
  { rewrite E, !app_length. lia. }
  split.
  - rewrite !app_length, mask_length. split; lia.
  - rewrite <- app_assoc. rewrite <- Lf at 1. rewrite skipn_app_exact. reflexivity.
Qed.

Lemma unpack_loop_spec d : Forall is_byte d -> Z.of_nat (length d) < 2 ^ 28 -> forall fuel k m out first op,
  mem_ok m -> mem_ok out -> mem_live m = skipn k d -> (k <= length d)%nat -> (length (mem_live m) < fuel)%nat ->
  match pmsg fuel (mem_live m) with
  | None => ws_unpack_loop fuel (mkbs d (8 * k)) m out first op = Some None
  | Some (fs, r) => exists m' out',
      ws_unpack_loop fuel (mkbs d (8 * k)) m out first op = Some (Some (if first then message_op fs else op, m', out'))
      /\ mem_ok m' /\ mem_live m' = r /\ mem_ok out' /\ mem_live out' = mem_live out ++ message_data fs
  end.
Proof.
  intros Hd Hs. induction fuel as [|fuel IH]; intros k m out first op Hok Hoo Hl Hk Hf; [lia|].
  cbn [ws_unpack_loop pmsg]. assert (H := header_spec false d k m first op Hd Hok Hl Hk).
  unfold parse1. destruct (phead (mem_live m)) as [p|]; [|rewrite H; reflexivity].
  destruct H as (m' & k' & H & Hok' & L1 & L2 & Hk' & Hp & Hmk & _). rewrite H. cbn [h_fin h_op h_mask h_key h_len h_st h_mem f_fin].
  assert (Lr : length (p_rest p) = (length d - k')%nat) by (rewrite <- L1, L2; apply skipn_length).
  destruct (mem_move_spec m' (Z.to_nat (p_len p)) Hok') as [A B]. rewrite L1 in B.
  set (h := mkwh _ _ _ _ _ _ _).
  set (data := if p_mask p =? 1 then mask_from (p_key p) 0 (firstn (Z.to_nat (p_len p)) (p_rest p)) else firstn (Z.to_nat (p_len p)) (p_rest p)).
  destruct (append_spec out h (Z.to_nat (p_len p)) data Hoo) as [C D].
  { cbn [h h_len]. lia. }
  { cbn [h h_mem]. rewrite L1. lia. }
  { cbn [h h_mem h_mask h_key]. rewrite L1. reflexivity. }
  destruct (p_fin p) eqn:Ef; cbn [Z.eqb].
  - change (1 =? 1) with true. cbv iota. exists (mem_move m' (Z.to_nat (p_len p))), (ws_append out h).
    split; [destruct first; reflexivity|]. split; [assumption|]. split; [assumption|]. split; [assumption|].
    rewrite D. cbn [message_data flat_map f_data]. rewrite app_nil_r. reflexivity.
  - rewrite bmove_small by lia.
    assert (Hl2 : mem_live (mem_move m' (Z.to_nat (p_len p))) = skipn (k' + Z.to_nat (p_len p)) d)
      by (rewrite B, <- L1, L2, skipn_skipn'; f_equal; lia).
    specialize (IH (k' + Z.to_nat (p_len p))%nat (mem_move m' (Z.to_nat (p_len p))) (ws_append out h) false (if first then p_op p else op)
                  A C Hl2 ltac:(lia)).
    rewrite Hl2, skipn_length in IH. rewrite Hl, skipn_length in Hf. specialize (IH ltac:(lia)).
    rewrite <- Hl2, B in IH.
    destruct (pmsg fuel _) as [[fs r]|].
    + destruct IH as (m2 & out2 & I1 & I2 & I3 & I4 & I5). exists m2, out2.
      split; [rewrite I1; destruct first; reflexivity|]. split; [assumption|]. split; [assumption|]. split; [assumption|].
      rewrite I5, D, <- app_assoc. reflexivity.
    + assumption.
Qed.

(** *** the whole of unpacking *)
Lemma live_le_buf m : (length (mem_live m) <= length (mbuf m))%nat.
Proof. unfold mem_live. rewrite skipn_length. lia. Qed.

Lemma unpack_wait m out : mem_ok m -> mem_ok out -> Forall is_byte (mem_live m) -> Z.of_nat (length (mem_live m)) < 2 ^ 28 ->
  pmsg (S (length (mbuf m))) (mem_live m) = None -> ws_unpack m out = Some (WsWait, m, out).
Proof.
  intros Hok Hoo Hd Hs Hp. unfold ws_unpack, ws_check.
  assert (H := check_loop_spec (mem_live m) Hd Hs (S (length (mbuf m))) 0 m true 0 Hok eq_refl ltac:(lia)).
  assert (L := live_le_buf m). specialize (H ltac:(lia)). rewrite Hp in H. change (8 * 0)%nat with 0%nat in H. rewrite H. reflexivity.
Qed.

Lemma unpack_msg m out fs r : mem_ok m -> mem_ok out -> Forall is_byte (mem_live m) -> Z.of_nat (length (mem_live m)) < 2 ^ 28 ->
  pmsg (S (length (mbuf m))) (mem_live m) = Some (fs, r) ->
  (message_op fs = 2 /\ message_data fs = [] /\ ws_unpack m out = None) \/
  exists m' out' res, ws_unpack m out = Some (res, m', out') /\ mem_ok m' /\ mem_live m' = r /\ mem_ok out' /\
    ((message_op fs = 1 /\ res = WsMsg 0 /\ mem_live out' = message_data fs)
     \/ (exists data t, message_op fs = 2 /\ message_data fs = data ++ [t] /\ res = WsMsg t /\ mem_live out' = data)
     \/ (message_op fs <> 1 /\ message_op fs <> 2 /\ res = WsError)).
Proof.
  intros Hok Hoo Hd Hs Hp. unfold ws_unpack, ws_check.
  assert (H := check_loop_spec (mem_live m) Hd Hs (S (length (mbuf m))) 0 m true 0 Hok eq_refl ltac:(lia)).
  assert (L := live_le_buf m). specialize (H ltac:(lia)). rewrite Hp in H. change (8 * 0)%nat with 0%nat in H. rewrite H. clear H.
  cbn [negb].
  destruct (mem_clear_spec out Hoo) as [C1 C2].
  assert (H := unpack_loop_spec (mem_live m) Hd Hs (S (length (mbuf m))) 0 m (mem_clear out) true 0 Hok C1 eq_refl ltac:(lia) ltac:(lia)).
  rewrite Hp in H. change (8 * 0)%nat with 0%nat in H. destruct H as (m' & out' & H & A & B & C & D). rewrite H. clear H.
  rewrite C2 in D. cbn [app] in D.
  assert (Sz := live_size out'). rewrite D in Sz.
  destruct (Z.eqb_spec (message_op fs) 1) as [E1|E1].
  { right. exists m', out', (WsMsg 0). split; [reflexivity|]. split; [assumption|]. split; [assumption|]. split; [assumption|]. left. auto. }
  destruct (Z.eqb_spec (message_op fs) 2) as [E2|E2].
  - destruct (mem_get_size out') as [|size'].
    { left. destruct (message_data fs); [auto|discriminate]. }
    right. eexists m', _, _. split; [reflexivity|]. split; [assumption|]. split; [assumption|].
    destruct C as [C3 C4]. unfold mem_live, mem_ok, msize in *.
    assert (Lb : length (mbuf out') = (moff out' + S size')%nat).
    { assert (length (skipn (moff out') (mbuf out')) = S size') by (rewrite D; assumption). rewrite skipn_length in *. lia. }
    cbn [mbuf moff mmax].
    split; [split; rewrite firstn_length; lia|]. right. left.
    exists (firstn size' (message_data fs)), (nth (moff out' + size') (mbuf out') 0).
    split; [assumption|]. split; [|split; [reflexivity|]].
    + rewrite <- D at 1. rewrite <- D. rewrite <- nth_skipn', D.
      rewrite <- (firstn_skipn size' (message_data fs)) at 1. f_equal.
      rewrite skipn_cons_nth by lia. rewrite skipn_all2 by lia. reflexivity.
    + rewrite <- D. rewrite skipn_firstn_comm. f_equal. lia.
  - right. exists m', out', WsError. split; [reflexivity|]. split; [assumption|]. split; [assumption|]. split; [assumption|]. right. right. auto.
Qed.

(** *** writing frames *)
Lemma tobits_app a b v : tobits (a + b) v = tobits a (v / 2 ^ Z.of_nat b) ++ tobits b v.
Proof.
  revert v. induction b as [|b IH]; intros v.
  - rewrite Nat.add_0_r. change (2 ^ Z.of_nat 0) with 1. rewrite Z.div_1_r, app_nil_r. reflexivity.
  - replace (a + S b)%nat with (S (a + b)) by lia. cbn [tobits]. rewrite IH, <- app_assoc. f_equal. f_equal.
    rewrite Z.div_div by lia. f_equal. rewrite Nat2Z.inj_succ, Z.pow_succ_r by lia. reflexivity.
Qed.

Lemma holds_bytes d bs : Forall is_byte d -> Forall is_byte bs -> forall k, (k + length bs <= length d)%nat ->
  holds d (8 * k) (flat_map (tobits 8) bs) -> firstn (length bs) (skipn k d) = bs.
Proof.
  intros Hd Hb. induction Hb as [|b bs Hb _ IH]; intros k Hk H; [reflexivity|].
  cbn [flat_map length] in *. apply holds_app in H. destruct H as [H1 H2]. rewrite tobits_length in H2.
  replace (8 * k + 8)%nat with (8 * S k)%nat in H2 by lia.
  rewrite skipn_cons_nth by lia. rewrite firstn_cons, IH by (auto; lia). f_equal.
  apply bval_holds in H1. rewrite (byte_bits (nth k d 0)) in H1 by (auto using nth_byte).
  rewrite H1. change (2 ^ Z.of_nat 8) with 256. unfold is_byte in Hb. apply Z.mod_small. assumption.
Qed.

Lemma bput_buffer_spec bs : forall s, Forall is_byte (bdat s) -> (bpos s + 8 * length bs <= 8 * length (bdat s))%nat ->
  exists s', bput_buffer s bs = Some s' /\ wr s s' (flat_map (tobits 8) bs).
Proof.
  induction bs as [|b bs IH]; intros s Hd Hl; cbn [bput_buffer flat_map length] in *.
  { exists s. split; [reflexivity|apply wr_nil; assumption]. }
  destruct (bput_spec s b 8 Hd ltac:(lia) ltac:(lia)) as (s1 & E1 & W1). rewrite E1.
  assert (B := wr_byte _ _ _ W1). assert (L := wr_len _ _ _ W1). assert (P := wr_pos _ _ _ W1). rewrite tobits_length in P.
  destruct (IH s1 B ltac:(lia)) as (s2 & E2 & W2). exists s2. split; [assumption|]. eapply wr_app; eassumption.
Qed.

Lemma flat_bits_length bs : length (flat_map (tobits 8) bs) = (8 * length bs)%nat.
Proof. induction bs as [|b bs IH]; [reflexivity|]. cbn [flat_map length]. rewrite app_length, tobits_length, IH. lia. Qed.

Ltac put_step := match goal with
  | B : Forall is_byte (bdat ?s), W : wr ?s0 ?s ?bs |- context [bput ?s ?v ?n] =>
    let s' := fresh "s" in let E := fresh "E" in let W' := fresh "W" in
    destruct (bput_spec s v n B ltac:(lia) ltac:(lia)) as (s' & E & W'); rewrite E;
    let B' := fresh "B" in let L' := fresh "L" in let P' := fresh "P" in
    assert (B' := wr_byte _ _ _ W'); assert (L' := wr_len _ _ _ W'); assert (P' := wr_pos _ _ _ W'); rewrite tobits_length in P';
    apply (wr_app _ _ _ _ _ W) in W'; clear W B
  end.

Lemma put_frame_spec room fin opc data tail : Forall is_byte room -> Forall is_byte data -> Forall is_byte tail ->
  (0 <= opc < 16) -> Z.of_nat (length data + length tail) <= 65535 -> (4 + length data + length tail <= length room)%nat ->
  exists f, ws_put_frame room fin opc data tail = Some (frame_bytes f) /\ frame_wf f /\
    f_fin f = fin /\ f_rsv f = 0 /\ f_op f = opc /\ f_key f = None /\ f_data f = data ++ tail
    /\ (length (frame_bytes f) <= 4 + length data + length tail)%nat.
Proof.
  intros Hr Hd Ht Ho Hs Hroom. set (sz := (length data + length tail)%nat) in *.
  set (size := Z.of_nat sz).
  exists (mkframe fin 0 opc None (if size <? 126 then Len7 else Len16) (data ++ tail)).
  cbn [f_fin f_rsv f_op f_key f_data].
  assert (Ldt : length (data ++ tail) = sz) by (rewrite app_length; reflexivity).
  assert (Hb : Forall is_byte (data ++ tail)) by (apply Forall_app; split; assumption).
  assert (WF : frame_wf (mkframe fin 0 opc None (if size <? 126 then Len7 else Len16) (data ++ tail))).
  { unfold frame_wf. cbn [f_fin f_rsv f_op f_key f_data f_form]. rewrite Ldt. fold size.
    split; [lia|]. split; [assumption|]. split; [assumption|]. split; [exact I|]. destruct (Z.ltb_spec size 126); lia. }
  assert (FB : frame_bytes (mkframe fin 0 opc None (if size <? 126 then Len7 else Len16) (data ++ tail)) =
    ((if fin then 128 else 0) + opc) :: (if size <? 126 then [size] else [126; size / 256; size mod 256]) ++ data ++ tail).
  { unfold frame_bytes. cbn [f_fin f_rsv f_op f_key f_data f_form]. rewrite Ldt. fold size.
    replace ((if fin then 128 else 0) + 16 * 0 + opc) with ((if fin then 128 else 0) + opc) by lia. cbn [app]. f_equal.
    destruct (size <? 126); [reflexivity|]. unfold be_bytes. cbn [le_bytes rev app]. rewrite (Z.mod_small (size / 256)); [reflexivity|].
    split; [apply Z.div_pos; lia|apply Z.div_lt_upper_bound; lia]. }
  assert (LFB : length (frame_bytes (mkframe fin 0 opc None (if size <? 126 then Len7 else Len16) (data ++ tail))) =
     ((if (size <? 126)%Z then 2 else 4) + sz)%nat).
  { rewrite FB. cbn [length]. rewrite app_length, Ldt. destruct (size <? 126); cbn [length]; lia. }
  split; [|split; [assumption|]; do 5 (split; [reflexivity|]); rewrite LFB; destruct (size <? 126); lia].
  unfold ws_put_frame. fold sz. fold size.
  assert (HbF : Forall is_byte (frame_bytes (mkframe fin 0 opc None (if size <? 126 then Len7 else Len16) (data ++ tail)))).
  { rewrite FB. constructor; [unfold is_byte; destruct fin; lia|]. apply Forall_app. split; [|assumption].
    destruct (Z.ltb_spec size 126).
    - repeat constructor; unfold is_byte; lia.
    - constructor; [unfold is_byte; lia|]. constructor.
      + unfold is_byte. split; [apply Z.div_pos; lia|apply Z.div_lt_upper_bound; lia].
      + constructor; [|constructor]. apply Z.mod_pos_bound. lia. }
  set (fb := frame_bytes _) in *.
  set (s0 := mkbs room 0).
  assert (W0 : wr s0 s0 []) by (apply wr_nil; assumption).
  assert (B0 : Forall is_byte (bdat s0)) by assumption.
  assert (P00 : bpos s0 = 0%nat) by reflexivity. assert (L00 : bdat s0 = room) by reflexivity.
  rewrite <- L00 in Hroom.
  assert (Fin : forall s, wr s0 s (flat_map (tobits 8) fb) -> Some (firstn ((bpos s + 7) / 8) (bdat s)) = Some fb).
  { intros s W. f_equal. assert (P := wr_pos _ _ _ W). rewrite flat_bits_length, P00 in P.
    replace ((bpos s + 7) / 8)%nat with (length fb) by lia.
    assert (Hw := wr_new _ _ _ W). rewrite P00 in Hw.
    apply (holds_bytes (bdat s) fb (wr_byte _ _ _ W) HbF 0).
    - rewrite (wr_len _ _ _ W), LFB, L00. rewrite L00 in Hroom. destruct (size <? 126); lia.
    - exact Hw. }
  assert (H0 : tobits 1 (if fin then 1 else 0) ++ tobits 3 0 ++ tobits 4 opc = tobits 8 ((if fin then 128 else 0) + opc)).
  { change 8%nat with (1 + (3 + 4))%nat. rewrite !tobits_app. change (2 ^ Z.of_nat 4) with 16. change (2 ^ Z.of_nat (3 + 4)) with 128.
    f_equal; [|f_equal].
    - f_equal. destruct fin; [replace (128 + opc) with (1 * 128 + opc) by lia; rewrite Z.div_add_l by lia|]; rewrite ?Z.div_small; lia.
    - rewrite <- (tobits_mod 3 (_ / 16)). f_equal. change (2 ^ Z.of_nat 3) with 8.
      destruct fin; [replace (128 + opc) with (8 * 16 + opc) by lia; rewrite Z.div_add_l by lia|]; rewrite ?(Z.div_small) by lia; reflexivity.
    - rewrite <- (tobits_mod 4 (_ + opc)). rewrite <- (tobits_mod 4 opc). f_equal. change (2 ^ Z.of_nat 4) with 16.
      destruct fin; [|reflexivity]. replace (128 + opc) with (opc + 8 * 16) by lia. rewrite Z.mod_add by lia. reflexivity. }
  assert (H1 : forall x, 0 <= x < 128 -> tobits 1 0 ++ tobits 7 x = tobits 8 x).
  { intros x Hx. change 8%nat with (1 + 7)%nat. rewrite tobits_app. f_equal. change (2 ^ Z.of_nat 7) with 128. rewrite Z.div_small by lia. reflexivity. }
  rewrite FB in Fin |- *. clear FB HbF LFB WF. clearbody s0. clear L00.
  do 4 put_step.
  destruct (Z.ltb_spec size 126) as [Hsz|Hsz].
  - put_step.
    match goal with B : Forall is_byte (bdat ?s), W : wr s0 ?s _ |- _ =>
      destruct (bput_buffer_spec data s B ltac:(lia)) as (sa & Ea & Wa); rewrite Ea;
      assert (La := wr_len _ _ _ Wa); assert (Pa := wr_pos _ _ _ Wa); rewrite flat_bits_length in Pa;
      destruct (bput_buffer_spec tail sa (wr_byte _ _ _ Wa) ltac:(lia)) as (sb & Eb & Wb); rewrite Eb;
      apply (wr_app _ _ _ _ _ W) in Wa; apply (wr_app _ _ _ _ _ Wa) in Wb end.
    apply Fin. cbn [flat_map app]. rewrite flat_map_app, <- H0, <- H1 by lia. 
    rewrite <- !app_assoc in *. exact Wb.
  - destruct (Z.leb_spec size 65535) as [Hs2|Hs2]; [|lia].
    do 2 put_step.
    match goal with B : Forall is_byte (bdat ?s), W : wr s0 ?s _ |- _ =>
      destruct (bput_buffer_spec data s B ltac:(lia)) as (sa & Ea & Wa); rewrite Ea;
      assert (La := wr_len _ _ _ Wa); assert (Pa := wr_pos _ _ _ Wa); rewrite flat_bits_length in Pa;
      destruct (bput_buffer_spec tail sa (wr_byte _ _ _ Wa) ltac:(lia)) as (sb & Eb & Wb); rewrite Eb;
      apply (wr_app _ _ _ _ _ W) in Wa; apply (wr_app _ _ _ _ _ Wa) in Wb end.
    apply Fin. cbn [flat_map app]. rewrite flat_map_app, <- H0, <- (H1 126) by lia.
    assert (H2 : tobits 16 size = tobits 8 (size / 256) ++ tobits 8 (size mod 256)).
    { change 16%nat with (8 + 8)%nat. rewrite tobits_app. f_equal. symmetry. apply (tobits_mod 8). }
    rewrite H2 in Wb. rewrite <- !app_assoc in *. exact Wb.
Qed.

(** *** packing *)
Definition MS : nat := WS_MAX_SEND_BUFF.
Lemma MS_val : Z.of_nat MS = 16368. Proof. reflexivity. Qed.

Definition frag_op (first : bool) (op : Z) : Z := if first then op else 0.

Lemma map_byte (g : nat -> Z) l : (forall i, is_byte (g i)) -> Forall is_byte (map g l).
Proof. intros H. induction l; cbn [map]; constructor; auto. Qed.

Lemma pack_loop_spec stale isstr tail : (forall i, is_byte (stale i)) -> Forall is_byte tail -> (length tail <= 1)%nat ->
  forall n inb out first, Forall is_byte inb ->
  (n * MS < length inb + length tail <= S n * MS)%nat ->
  length (mbuf out) = moff out ->
  Z.of_nat (moff out + length inb + length tail + S n * 4) <= mmax out ->
  exists fs out', ws_pack_loop stale isstr tail (S n) first inb out = Some out'
    /\ mbuf out' = mbuf out ++ message_bytes fs /\ length (mbuf out') = moff out'
    /\ Z.of_nat (length (mbuf out')) <= mmax out'
    /\ message fs /\ message_data fs = inb ++ tail
    /\ fragments (frag_op first (if isstr then 1 else 2)) fs /\ Forall (server_frame MS) fs.
Proof.
  intros Hst Ht Hlt. induction n as [|n IH]; intros inb out first Hin Hn Hof Hroom; assert (HM := MS_val);
    cbn [ws_pack_loop]; fold MS.
  - assert (length inb + length tail <= MS)%nat by lia.
    replace (Nat.min (length inb) MS) with (length inb) by lia.
    cbn [Nat.eqb]. rewrite firstn_all.
    set (room := map stale _).
    assert (Lr : length room = (Z.to_nat (mmax out) - moff out)%nat) by (unfold room; rewrite map_length, seq_length; reflexivity).
    destruct (put_frame_spec room true (if first then if isstr then 1 else 2 else 0) inb tail)
      as (f & E & W & F1 & F2 & F3 & F4 & F5 & F6).
    { unfold room. apply map_byte. assumption. } { assumption. } { assumption. }
    { destruct first, isstr; lia. } { lia. } { lia. }
    rewrite E. unfold ws_accept.
    destruct (Z.leb_spec (Z.of_nat (moff out + length (frame_bytes f))) (mmax out)); [|lia].
    exists [f]. eexists. split; [reflexivity|]. cbn [mbuf moff mmax message_bytes flat_map].
    rewrite app_nil_r. rewrite (firstn_all2 (mbuf out)) by lia.
    split; [reflexivity|]. split; [rewrite app_length; lia|]. split; [rewrite app_length; lia|].
    split; [apply msg_last; assumption|].
    split; [cbn [message_data flat_map]; rewrite app_nil_r; assumption|].
    split; [split; [rewrite F3; reflexivity|constructor]|].
    constructor; [|constructor]. split; [assumption|]. split; [assumption|]. rewrite F5, app_length. lia.
  - assert (MS <= length inb)%nat by lia.
    replace (Nat.min (length inb) MS) with MS by lia.
    assert (L1 : length (firstn MS inb) = MS) by (rewrite firstn_length; lia).
    assert (L2 : length (skipn MS inb) = (length inb - MS)%nat) by apply skipn_length.
    change (Nat.eqb (S n) 0) with false. cbv iota.
    set (room := map stale _).
    assert (Lr : length room = (Z.to_nat (mmax out) - moff out)%nat) by (unfold room; rewrite map_length, seq_length; reflexivity).
    destruct (put_frame_spec room false (if first then if isstr then 1 else 2 else 0) (firstn MS inb) [])
      as (f & E & W & F1 & F2 & F3 & F4 & F5 & F6).
    { unfold room. apply map_byte. assumption. } { apply Forall_firstn. assumption. } { constructor. }
    { destruct first, isstr; lia. } { cbn [length]. lia. } { cbn [length]. lia. }
    rewrite E. unfold ws_accept. cbn [length] in F6.
    destruct (Z.leb_spec (Z.of_nat (moff out + length (frame_bytes f))) (mmax out)); [|lia].
    set (out1 := mkmem _ _ _).
    assert (Hb1 : mbuf out1 = mbuf out ++ frame_bytes f) by (unfold out1; cbn [mbuf]; rewrite (firstn_all2 (mbuf out)) by lia; reflexivity).
    destruct (IH (skipn MS inb) out1 false) as (fs & out' & A1 & A2 & A3 & A4 & A5 & A6 & A7 & A8).
    { apply Forall_skipn. assumption. } { lia. }
    { rewrite Hb1, app_length. unfold out1. cbn [moff]. lia. }
    { unfold out1. cbn [moff mmax]. lia. }
    exists (f :: fs), out'. cbn [ws_pack_loop] in A1. fold MS in A1. split; [exact A1|].
    split; [rewrite A2, Hb1, <- app_assoc; reflexivity|]. split; [assumption|]. split; [assumption|].
    split; [apply msg_more; assumption|].
    split; [cbn [message_data flat_map]; change (flat_map f_data fs) with (message_data fs); rewrite F5, A6, app_nil_r, app_assoc, firstn_skipn; reflexivity|].
    split.
    + split; [rewrite F3; destruct first; reflexivity|]. destruct fs as [|g fs]; [constructor|]. destruct A7. constructor; assumption.
    + constructor; [|assumption]. split; [assumption|]. split; [assumption|]. rewrite F5, app_nil_r. lia.
Qed.

Lemma pack_message_spec stale isstr tail inb out : (forall i, is_byte (stale i)) -> Forall is_byte tail -> (length tail <= 1)%nat ->
  Forall is_byte inb -> mem_ok out -> (0 < length inb + length tail)%nat ->
  exists fs out', ws_pack_message stale isstr inb tail out = Some out' /\ mem_ok out' /\ mem_live out' = message_bytes fs
    /\ message fs /\ message_data fs = inb ++ tail /\ fragments (if isstr then 1 else 2) fs /\ Forall (server_frame MS) fs.
Proof.
  intros Hst Ht Hlt Hin Hok Hne. unfold ws_pack_message. fold MS. assert (HM := MS_val).
  set (total := (length inb + length tail)%nat) in *.
  assert (HMS : (MS <> 0)%nat) by lia.
  assert (D := Nat.div_mod total MS HMS). assert (R := Nat.mod_upper_bound total MS HMS).
  set (q := (total / MS)%nat) in *. set (r := (total mod MS)%nat) in *. clearbody q r.
  set (count := (q + (if Nat.eqb r 0 then 0 else 1))%nat).
  assert (Hc : exists n, count = S n /\ (n * MS < total <= S n * MS)%nat).
  { unfold count. destruct (Nat.eqb_spec r 0) as [E|E].
    - destruct q as [|q]; [lia|]. exists q. split; [lia|]. rewrite (Nat.mul_comm MS) in D. cbn [Nat.mul]. cbn [Nat.mul] in D. lia.
    - exists q. split; [lia|]. rewrite (Nat.mul_comm MS) in D. cbn [Nat.mul]. lia. }
  destruct Hc as (n & -> & Hn).
  set (cap := Z.of_nat (total + S n * WS_MAX_HEAD_LEN)).
  set (out1 := mem_set_maxsize (mem_clear out) cap).
  assert (H1 : mbuf out1 = [] /\ moff out1 = 0%nat /\ cap <= mmax out1).
  { unfold out1, mem_set_maxsize, mem_clear. cbn [mmax moff mbuf]. destruct (Z.ltb_spec (mmax out) cap); cbn [mbuf moff mmax]; repeat split; lia. }
  destruct H1 as (H1 & H2 & H3). unfold cap in H3. change WS_MAX_HEAD_LEN with 16%nat in H3.
  destruct (pack_loop_spec stale isstr tail Hst Ht Hlt n inb out1 true Hin Hn) as (fs & out' & A1 & A2 & A3 & A4 & A5 & A6 & A7 & A8).
  { rewrite H1, H2. reflexivity. } { lia. }
  rewrite A1. rewrite H1 in A2. cbn [app] in A2.
  exists fs. eexists. split; [reflexivity|].
  assert (NE : (0 < length (mbuf out'))%nat).
  { rewrite A2. destruct A5; cbn [message_bytes flat_map]; rewrite app_length; assert (L := frame_bytes_len f); lia. }
  unfold mem_jumpto. destruct (Nat.ltb_spec 0 (length (mbuf out'))); [|lia].
  unfold mem_ok, mem_live, msize. cbn [mbuf moff mmax skipn]. rewrite A2 in *.
  split; [split; [lia|assumption]|]. split; [reflexivity|]. split; [assumption|]. split; [assumption|]. split; assumption.
Qed.

(** *** the statements of P_ws *)
Lemma ws_unpack_message_lemma m out fs rest : mem_ok m -> mem_ok out ->
  message fs -> Forall is_byte rest -> mem_live m = message_bytes fs ++ rest -> Z.of_nat (length (mem_live m)) < 2 ^ 28 ->
  Forall is_byte (message_bytes fs) ->
  (message_op fs = 2 /\ message_data fs = [] /\ ws_unpack m out = None) \/
  exists m' out' res, ws_unpack m out = Some (res, m', out') /\ mem_ok m' /\ mem_live m' = rest /\ mem_ok out' /\
    ((message_op fs = 1 /\ res = WsMsg 0 /\ mem_live out' = message_data fs)
     \/ (exists data t, message_op fs = 2 /\ message_data fs = data ++ [t] /\ res = WsMsg t /\ mem_live out' = data)
     \/ (message_op fs <> 1 /\ message_op fs <> 2 /\ res = WsError)).
Proof.
  intros Hok Hoo M Hr Hl Hs Hb.
  apply unpack_msg; auto.
  - rewrite Hl. apply Forall_app. split; assumption.
  - rewrite Hl. apply pmsg_enc; [assumption|]. assert (L := live_le_buf m). rewrite Hl, app_length in L. lia.
Qed.

Lemma frame_bytes_byte f : frame_wf f -> Forall is_byte (frame_bytes f).
Proof.
  intros (Hr & Ho & Hd & Hk & Hl). unfold frame_bytes.
  apply Forall_app. split; [constructor; [unfold is_byte; destruct (f_fin f); lia|constructor]|].
  apply Forall_app. split.
  - destruct (f_form f); (constructor; [unfold is_byte; destruct (f_key f); lia|]); try apply be_bytes_byte. constructor.
  - destruct (f_key f); [|assumption]. destruct Hk. apply Forall_app. split; [assumption|]. apply mask_byte; assumption.
Qed.
Lemma message_bytes_byte fs : message fs -> Forall is_byte (message_bytes fs).
Proof. induction 1; cbn [message_bytes flat_map]; apply Forall_app; split; auto using frame_bytes_byte. Qed.

Lemma ws_unpack_prefix m out fs rest : mem_ok m -> mem_ok out -> message fs -> mem_live m ++ rest = message_bytes fs -> rest <> [] ->
  Z.of_nat (length (mem_live m)) < 2 ^ 28 -> ws_unpack m out = Some (WsWait, m, out).
Proof.
  intros Hok Hoo M Hl Hr Hs.
  assert (Hb := message_bytes_byte fs M). rewrite <- Hl in Hb. apply Forall_app in Hb. destruct Hb as [Hb _].
  apply unpack_wait; auto. destruct (pmsg _ (mem_live m)) as [[fs' r']|] eqn:E; [|reflexivity]. exfalso.
  destruct (pmsg_sound _ _ _ _ Hb E) as [M' E'].
  assert (A := pmsg_enc fs M (S (length (message_bytes fs))) [] ltac:(lia)). rewrite app_nil_r in A.
  rewrite <- Hl, E', <- app_assoc in A. rewrite pmsg_enc in A; [|assumption|rewrite !app_length; lia].
  injection A as _ A. apply app_eq_nil in A. tauto.
Qed.

Lemma ws_unpack_total m out : mem_ok m -> mem_ok out -> Forall is_byte (mem_live m) -> Z.of_nat (length (mem_live m)) < 2 ^ 28 ->
  (exists fs rest, message fs /\ mem_live m = message_bytes fs ++ rest /\ message_op fs = 2 /\ message_data fs = [] /\ ws_unpack m out = None) \/
  (exists m' out' res, ws_unpack m out = Some (res, m', out') /\ mem_ok m' /\ mem_ok out'
     /\ (res = WsWait -> m' = m /\ out' = out)
     /\ (res <> WsWait -> exists fs, message fs /\ mem_live m = message_bytes fs ++ mem_live m')).
Proof.
  intros Hok Hoo Hb Hs. destruct (pmsg (S (length (mbuf m))) (mem_live m)) as [[fs r]|] eqn:E.
  - destruct (pmsg_sound _ _ _ _ Hb E) as [M E'].
    destruct (unpack_msg m out fs r Hok Hoo Hb Hs E) as [(A & B & C)|(m' & out' & res & A & B & C & D & F)].
    + left. exists fs, r. auto.
    + right. exists m', out', res. split; [assumption|]. split; [assumption|]. split; [assumption|]. split.
      * intros ->. exfalso. destruct F as [(_ & F & _)|[(? & ? & _ & _ & F & _)|(_ & _ & F)]]; discriminate.
      * intros _. exists fs. split; [assumption|]. rewrite C. assumption.
  - right. exists m, out, WsWait. split; [apply unpack_wait; assumption|]. split; [assumption|]. split; [assumption|].
    split; [auto|]. intros H; contradiction.
Qed.

(** *** a stream of messages, cut into chunks anywhere *)
Lemma app_prefix (a b c d : list Z) : a ++ b = c ++ d -> (length c <= length a)%nat -> exists x, a = c ++ x /\ d = x ++ b.
Proof.
  revert c. induction a as [|z a IH]; intros [|y c] H L; cbn [length app] in *; try lia.
  - exists []. auto.
  - exists (z :: a). auto.
  - injection H as -> H. destruct (IH c H ltac:(lia)) as (x & -> & ->). exists x. auto.
Qed.

Definition small (fs : list frame) : Prop := Z.of_nat (length (message_bytes fs)) < 2 ^ 27.

Definition waits (ms : list (list frame)) (bs : list Z) : Prop :=
  match ms with [] => True | fs :: _ => (length bs < length (message_bytes fs))%nat end.

Lemma stream_byte ms : Forall message ms -> Forall is_byte (stream ms).
Proof. induction 1; cbn [stream flat_map]; [constructor|]. apply Forall_app. split; [apply message_bytes_byte; assumption|assumption]. Qed.

Lemma create_ok : mem_ok (mem_create_size (16 * 1024)).
Proof. apply mem_ok_create_size. lia. Qed.

Lemma recv_loop_spec pre later ms : Forall message ms -> Forall small ms -> incomplete (2 ^ 27) pre ->
  forall l, delivers ms l -> forall fuel m, mem_ok m -> mem_live m ++ later = stream ms ++ pre ->
  Z.of_nat (length (mem_live m)) < 2 ^ 28 -> (length (mem_live m) < fuel)%nat ->
  exists ms2 l1 l2 m', ws_recv_loop fuel m = Some (l1, m', true) /\ l = l1 ++ l2 /\ delivers ms2 l2
    /\ Forall message ms2 /\ Forall small ms2
    /\ mem_ok m' /\ mem_live m' ++ later = stream ms2 ++ pre /\ Z.of_nat (length (mem_live m')) < 2 ^ 27 /\ waits ms2 (mem_live m').
Proof.
  intros Hm Hsm Hp. induction Hm as [|fs ms M Hm IH]; intros l D fuel m Hok Hl Hs Hf; (destruct fuel as [|fuel]; [lia|]);
    cbn [ws_recv_loop].
  - inversion D; subst. destruct Hp as (fp & rp & Mp & Hn & Ep & Lp). cbn [stream flat_map app] in Hl.
    assert (W : ws_unpack m (mem_create_size (16 * 1024)) = Some (WsWait, m, mem_create_size (16 * 1024))).
    { apply (ws_unpack_prefix m _ fp (later ++ rp)); auto using create_ok.
      - rewrite app_assoc, Hl. assumption.
      - intros E. apply app_eq_nil in E. tauto. }
    unfold ws_recv_message. rewrite W. exists [], [], [], m. split; [reflexivity|]. split; [reflexivity|].
    split; [constructor|]. split; [constructor|]. split; [constructor|]. split; [assumption|]. split; [assumption|].
    split; [|exact I]. rewrite <- Ep, <- Hl, !app_length in Lp. lia.
  - apply Forall_cons_iff in Hsm. destruct Hsm as [Hfs Hsm].
    inversion D as [|fs' ms' i d l' Hmean D' E1 E2]; subst fs' ms' l.
    cbn [stream flat_map] in Hl. change (flat_map message_bytes ms) with (stream ms) in Hl. rewrite <- app_assoc in Hl.
    destruct (Nat.le_gt_cases (length (message_bytes fs)) (length (mem_live m))) as [Hge|Hlt].
    + destruct (app_prefix _ _ _ _ Hl Hge) as (x & Ex & Ey).
      assert (Hbx : Forall is_byte x).
      { assert (B : Forall is_byte (stream ms ++ pre)).
        { apply Forall_app. split; [apply stream_byte; assumption|]. destruct Hp as (fp & rp & Mp & Hn & Ep & Lp).
          assert (B := message_bytes_byte fp Mp). rewrite <- Ep in B. apply Forall_app in B. tauto. }
        rewrite Ey in B. apply Forall_app in B. tauto. }
      assert (Hb := message_bytes_byte fs M).
      destruct (ws_unpack_message_lemma m (mem_create_size (16 * 1024)) fs x Hok create_ok M Hbx Ex Hs Hb)
        as [(A & B & _)|(m' & out' & res & A & B & C & E & F)].
      { exfalso. destruct Hmean as [(O & _)|(O & P)]; [lia|]. rewrite B in P. destruct d; discriminate. }
      unfold ws_recv_message. rewrite A.
      assert (R : res = WsMsg i /\ mem_live out' = d).
      { destruct F as [(O & R & L)|[(d' & t & O & L & R & L')|(O1 & O2 & R)]].
        - destruct Hmean as [(_ & -> & ->)|(O' & _)]; [auto|lia].
        - destruct Hmean as [(O' & _)|(_ & P)]; [lia|]. rewrite L in P. apply app_inj_tail in P. destruct P as [-> ->]. auto.
        - exfalso. destruct Hmean as [(O' & _)|(O' & _)]; lia. }
      destruct R as [-> Ld].
      destruct (IH Hsm l' D' fuel m' B) as (ms2 & l1 & l2 & m2 & R1 & R2 & R3 & R4 & R5 & R6 & R7 & R8 & R9).
      { rewrite C, <- Ey. reflexivity. }
      { rewrite C. rewrite Ex, app_length in Hs. lia. }
      { rewrite C. rewrite Ex, app_length in Hf. assert (2 <= length (message_bytes fs))%nat; [|lia].
        destruct M; cbn [message_bytes flat_map]; rewrite app_length; assert (Q := frame_bytes_len f); lia. }
      rewrite R1, Ld. exists ms2, ((i, d) :: l1), l2, m2. split; [reflexivity|]. split; [rewrite R2; reflexivity|].
      split; [assumption|]. split; [assumption|]. split; [assumption|]. split; [assumption|]. split; [assumption|]. split; assumption.
    + symmetry in Hl. destruct (app_prefix _ _ _ _ Hl ltac:(lia)) as (x & Ex & Ey). symmetry in Hl.
      assert (W : ws_unpack m (mem_create_size (16 * 1024)) = Some (WsWait, m, mem_create_size (16 * 1024))).
      { apply (ws_unpack_prefix m _ fs x); auto using create_ok.
        intros ->. rewrite app_nil_r in Ex. rewrite Ex in Hlt. lia. }
      unfold ws_recv_message. rewrite W. exists (fs :: ms), [], ((i, d) :: l'), m.
      split; [reflexivity|]. split; [reflexivity|]. split; [assumption|]. split; [constructor; assumption|].
      split; [constructor; assumption|]. split; [assumption|].
      split; [cbn [stream flat_map]; change (flat_map message_bytes ms) with (stream ms); rewrite <- app_assoc; assumption|]. split; [unfold small in Hfs; lia|exact Hlt].
Qed.

Lemma recv_chunks_spec pre : incomplete (2 ^ 27) pre -> forall chunks later ms l m, Forall message ms -> Forall small ms -> delivers ms l ->
  mem_ok m -> waits ms (mem_live m) -> mem_live m ++ concat chunks ++ later = stream ms ++ pre -> Z.of_nat (length (mem_live m)) < 2 ^ 27 ->
  Forall (fun c => Z.of_nat (length c) < 2 ^ 27) chunks ->
  exists ms2 l1 l2 m', ws_recv_chunks m chunks = Some (l1, m', true) /\ l = l1 ++ l2 /\ delivers ms2 l2
    /\ Forall message ms2 /\ Forall small ms2 /\ mem_ok m' /\ mem_live m' ++ later = stream ms2 ++ pre /\ Z.of_nat (length (mem_live m')) < 2 ^ 27 /\ waits ms2 (mem_live m').
Proof.
  intros Hp. induction chunks as [|c chunks IH]; intros later ms l m Hm Hsm D Hok Hwt Hl Hs Hc; cbn [ws_recv_chunks].
  - exists ms, [], l, m. cbn [concat app] in Hl. repeat (split; [reflexivity || assumption|]). assumption.
  - cbn [concat] in Hl. apply Forall_cons_iff in Hc. destruct Hc as [Hc Hcs].
    destruct (mem_cat_spec m c Hok) as [A B].
    assert (Hl1 : mem_live (mem_cat m c) ++ concat chunks ++ later = stream ms ++ pre) by (rewrite B, <- !app_assoc in *; assumption).
    destruct (recv_loop_spec pre (concat chunks ++ later) ms Hm Hsm Hp l D (S (mem_get_size (mem_cat m c))) (mem_cat m c) A Hl1)
      as (ms2 & l1 & l2 & m' & R1 & R2 & R3 & R4 & R5 & R6 & R7 & R8 & R9).
    { rewrite B, app_length. change (2 ^ 28) with (2 ^ 27 + 2 ^ 27). lia. }
    { rewrite live_size. lia. }
    rewrite R1.
    destruct (IH later ms2 l2 m' R4 R5 R3 R6 R9 R7 R8 Hcs) as (ms3 & l3 & l4 & m3 & Q1 & Q2 & Q3 & Q4 & Q5 & Q6 & Q7 & Q8 & Q9).
    rewrite Q1. exists ms3, (l1 ++ l3), l4, m3. split; [reflexivity|]. split; [rewrite R2, Q2, app_assoc; reflexivity|].
    repeat (split; [assumption|]). assumption.
Qed.

Lemma recv_spec pre : incomplete (2 ^ 27) pre -> forall batches later ms l m, Forall message ms -> Forall small ms -> delivers ms l ->
  mem_ok m -> waits ms (mem_live m) -> mem_live m ++ concat (concat batches) ++ later = stream ms ++ pre -> Z.of_nat (length (mem_live m)) < 2 ^ 27 ->
  Forall (fun c => Z.of_nat (length c) < 2 ^ 27) (concat batches) ->
  exists ms2 l1 l2 m', ws_recv m batches = Some (l1, m', true) /\ l = l1 ++ l2 /\ delivers ms2 l2
    /\ Forall message ms2 /\ Forall small ms2 /\ mem_ok m' /\ mem_live m' ++ later = stream ms2 ++ pre /\ Z.of_nat (length (mem_live m')) < 2 ^ 27 /\ waits ms2 (mem_live m').
Proof.
  intros Hp. induction batches as [|b batches IH]; intros later ms l m Hm Hsm D Hok Hwt Hl Hs Hc; cbn [ws_recv].
  - exists ms, [], l, m. cbn [concat app] in Hl. repeat (split; [reflexivity || assumption|]). assumption.
  - cbn [concat] in *. rewrite concat_app in Hl. apply Forall_app in Hc. destruct Hc as [Hc Hcs].
    destruct (recv_chunks_spec pre Hp b (concat (concat batches) ++ later) ms l m Hm Hsm D Hok Hwt) as (ms2 & l1 & l2 & m' & R1 & R2 & R3 & R4 & R5 & R6 & R7 & R8 & R9);
      [rewrite <- app_assoc in Hl; assumption|assumption|assumption|].
    rewrite R1. destruct (mem_pack_spec m' R6) as [P1 P2].
    destruct (IH later ms2 l2 (mem_pack m') R4 R5 R3 P1) as (ms3 & l3 & l4 & m3 & Q1 & Q2 & Q3 & Q4 & Q5 & Q6 & Q7 & Q8 & Q9);
      [rewrite P2; assumption|rewrite P2; assumption|rewrite P2; assumption|assumption|].
    rewrite Q1. exists ms3, (l1 ++ l3), l4, m3. split; [reflexivity|]. split; [rewrite R2, Q2, app_assoc; reflexivity|].
    repeat (split; [assumption|]). assumption.
Qed.

(** once a stream has arrived, cut into chunks and batches of chunks in any way, exactly its
    messages have been handed over and the incomplete rest is kept *)
Lemma recv_all pre batches ms l m : incomplete (2 ^ 27) pre -> Forall message ms -> Forall small ms -> delivers ms l ->
  mem_ok m -> mem_live m = [] -> concat (concat batches) = stream ms ++ pre ->
  Forall (fun c => Z.of_nat (length c) < 2 ^ 27) (concat batches) ->
  exists m', ws_recv m batches = Some (l, m', true) /\ mem_live m' = pre.
Proof.
  intros Hp Hm Hsm D Hok Hl Hc Hcs.
  assert (Hw : waits ms (mem_live m)).
  { rewrite Hl. destruct Hm as [|fs ms' M _]; [exact I|]. cbn [waits length].
    destruct M; cbn [message_bytes flat_map]; rewrite app_length; assert (Q := frame_bytes_len f); lia. }
  destruct (recv_spec pre Hp batches [] ms l m Hm Hsm D Hok Hw) as (ms2 & l1 & l2 & m' & R1 & R2 & R3 & R4 & R5 & R6 & R7 & R8 & R9).
  { rewrite Hl, app_nil_r. assumption. } { rewrite Hl. cbn [length]. lia. } { assumption. }
  exists m'. rewrite app_nil_r in R7.
  assert (ms2 = []) as ->.
  { destruct ms2 as [|fs ms2]; [reflexivity|]. exfalso. cbn [waits] in R9. rewrite R7 in R9. cbn [stream flat_map] in R9.
    rewrite !app_length in R9. lia. }
  inversion R3; subst. rewrite app_nil_r. split; [assumption|]. assumption.
Qed.

(** packing and unpacking *)
Lemma pack_lemma stale inb info out : (forall i, is_byte (stale i)) -> Forall is_byte inb -> is_byte info ->
  mem_ok out -> inb <> [] \/ Z.odd info = true ->
  exists fs out', ws_pack stale inb info out = Some out' /\ mem_ok out' /\ mem_live out' = message_bytes fs /\ message fs
    /\ message_means fs (if Z.odd info then info else 0) inb
    /\ fragments (if Z.odd info then 2 else 1) fs /\ Forall (server_frame (Z.to_nat 16368)) fs.
Proof.
  intros Hst Hin Hi Hok Hne. unfold ws_pack. destruct (Z.odd info) eqn:Eo.
  - destruct (pack_message_spec stale false [info] inb out Hst ltac:(constructor; auto) ltac:(cbn; lia) Hin Hok ltac:(cbn [length]; lia))
      as (fs & out' & A & B & C & D & E & F & G).
    exists fs, out'. do 4 (split; [assumption|]). split; [|split; assumption].
    right. split; [|assumption]. destruct fs; [contradiction|]. apply F.
  - destruct (pack_message_spec stale true [] inb out Hst ltac:(constructor) ltac:(cbn; lia) Hin Hok)
      as (fs & out' & A & B & C & D & E & F & G).
    { destruct Hne as [Hne|]; [|discriminate]. destruct inb; [contradiction|cbn [length]; lia]. }
    exists fs, out'. do 4 (split; [assumption|]). split; [|split; assumption].
    left. rewrite app_nil_r in E. split; [|split; [reflexivity|symmetry; assumption]]. destruct fs; [contradiction|]. apply F.
Qed.

Lemma unpack_means m out fs rest info data : mem_ok m -> mem_ok out -> message fs -> Forall is_byte rest ->
  mem_live m = message_bytes fs ++ rest -> Z.of_nat (length (mem_live m)) < 2 ^ 28 -> message_means fs info data ->
  exists m' out', ws_unpack m out = Some (WsMsg info, m', out') /\ mem_ok m' /\ mem_live m' = rest /\ mem_ok out' /\ mem_live out' = data.
Proof.
  intros Hok Hoo M Hr Hl Hs Hmean.
  destruct (ws_unpack_message_lemma m out fs rest Hok Hoo M Hr Hl Hs (message_bytes_byte fs M))
    as [(A & B & _)|(m' & out' & res & A & B & C & E & F)].
  { exfalso. destruct Hmean as [(O & _)|(O & P)]; [lia|]. rewrite B in P. destruct data; discriminate. }
  exists m', out'. 
  assert (R : res = WsMsg info /\ mem_live out' = data).
  { destruct F as [(O & R & L)|[(d' & t & O & L & R & L')|(O1 & O2 & R)]].
    - destruct Hmean as [(_ & -> & ->)|(O' & _)]; [auto|lia].
    - destruct Hmean as [(O' & _)|(_ & P)]; [lia|]. rewrite L in P. apply app_inj_tail in P. destruct P as [-> ->]. auto.
    - exfalso. destruct Hmean as [(O' & _)|(O' & _)]; lia. }
  destruct R as [-> ->]. auto.
Qed.

(** a buffer of 2^28 zero bytes: the bit position of the second fragment is the end *)
Lemma large_lemma N m out : Z.of_nat N = 268435456 -> mem_ok m -> mem_live m = repeat 0 N -> ws_unpack m out = None.
Proof.
  intros HN Hok Hl. destruct N as [|[|N]]; [lia|lia|]. unfold ws_unpack, ws_check.
  assert (Ld : length (mem_live m) = S (S N)) by (rewrite Hl, repeat_length; reflexivity).
  assert (Hd : Forall is_byte (mem_live m)).
  { rewrite Hl. apply Forall_forall. intros x Hx. apply repeat_spec in Hx. subst x. unfold is_byte. lia. }
  assert (Hb := live_le_buf m).
  assert (exists n, length (mbuf m) = S (S n)) as (n & ->).
  { destruct (length (mbuf m)) as [|[|n]]; [lia|lia|eauto]. }
  assert (H := header_spec true (mem_live m) 0 m true 0 Hd Hok eq_refl ltac:(lia)). change (8 * 0)%nat with 0%nat in H.
  assert (Hp : phead (mem_live m) = Some (mkph false 0 0 0 Len7 [] 0 (repeat 0 N))).
  { rewrite Hl. cbn [repeat]. unfold phead. change (0 mod 128) with 0. change (0 / 128) with 0. change (form_of 0) with Len7.
    cbn [form_w Z.eqb]. rewrite !skipn_O, firstn_O. destruct (Z.ltb_spec (Z.of_nat (length (repeat 0 N))) 0); [lia|].
    destruct (length (repeat 0 N)); reflexivity. }
  rewrite Hp in H. destruct H as (m' & k' & H & Hok' & L1 & L2 & Hk' & _).
  cbn [p_fin p_rsv p_op p_mask p_form p_key p_len p_rest] in H, L1.
  assert (k' = 2)%nat.
  { assert (Q : length (skipn k' (mem_live m)) = length (repeat 0 N)) by (rewrite <- L2, L1; reflexivity).
    rewrite skipn_length, repeat_length in Q. lia. }
  subst k'. set (d := mem_live m) in *. clearbody d. cbn [ws_check_loop]. rewrite H. cbn [h_fin h_op h_mask h_key h_len h_st h_mem].
  change (0 =? 1) with false. cbv iota. change (Z.to_nat 0) with 0%nat.
  set (m2 := mem_move m' 0). destruct (mem_move_spec m' 0 Hok') as [_ Lm2]. rewrite L2, skipn_O in Lm2. fold m2 in Lm2.
  assert (Sz := live_size m2). rewrite Lm2, skipn_length in Sz.
  assert (Hpos : bmove_bytes (mkbs d (8 * 2)) 0 = mkbs d (8 * length d)).
  { unfold bmove_bytes. cbn [bdat bpos]. f_equal. rewrite Ld, HN. change (Z.of_nat (8 * 2) + Z.of_nat 0 * 8) with 16.
    change (268435456 * 8) with 2147483648. change (to_u 32 2147483648) with 2147483648. change (to_s 32 2147483648) with (-2147483648).
    change (to_s 32 16) with 16. change (16 <? 0) with false. change (16 >? -2147483648) with true. cbv iota. lia. }
  rewrite Hpos. 
  unfold ws_header at 1. destruct (Nat.ltb_spec (mem_get_size m2) 2) as [Q|_]; [lia|].
  unfold bget at 1. cbn [bdat bpos]. replace (8 * length d / 8)%nat with (length d) by (rewrite Nat.mul_comm, Nat.div_mul; lia).
  unfold ld. rewrite (proj2 (nth_error_None d (length d))) by lia. reflexivity.
Qed.

Lemma ws_roundtrip stale inb info out : (forall i, is_byte (stale i)) -> Forall is_byte inb -> is_byte info -> mem_ok out ->
  inb <> [] \/ Z.odd info = true ->
  exists out', ws_pack stale inb info out = Some out' /\
    forall m o rest, mem_ok m -> mem_ok o -> Forall is_byte rest -> mem_live m = mem_live out' ++ rest ->
      Z.of_nat (length (mem_live m)) < 2 ^ 28 ->
      exists m' o', ws_unpack m o = Some (WsMsg (if Z.odd info then info else 0), m', o') /\ mem_live m' = rest /\ mem_live o' = inb.
Proof.
  intros Hst Hin Hi Hok Hne. destruct (pack_lemma stale inb info out Hst Hin Hi Hok Hne) as (fs & out' & A & B & C & D & E & _).
  exists out'. split; [assumption|]. intros m o rest Hm Ho Hr Hl Hs. rewrite C in Hl.
  destruct (unpack_means m o fs rest _ _ Hm Ho D Hr Hl Hs E) as (m' & o' & P & _ & Q & _ & R). exists m', o'. auto.
Qed.

Lemma ws_empty : exists stale, (forall i, is_byte (stale i)) /\
  match ws_pack stale [] 0 mem_create with Some o => mem_live o = [] | None => False end.
Proof. exists (fun _ => 0). split; [intros _; unfold is_byte; lia|vm_compute; reflexivity]. Qed.

Lemma ws_large : exists bs, Forall is_byte bs /\ Z.of_nat (length bs) = 2 ^ 28 /\
  forall m out, mem_ok m -> mem_live m = bs -> ws_unpack m out = None.
Proof.
  assert (exists N, Z.of_nat N = 268435456) as (N & HN).
  { exists (Z.to_nat 268435456). apply Z2Nat.id. lia. }
  exists (repeat 0 N). split.
  - apply Forall_forall. intros x Hx. apply repeat_spec in Hx. subst x. unfold is_byte. lia.
  - split; [rewrite repeat_length; exact HN|]. intros m out. apply large_lemma. assumption.
Qed.

Lemma ws_empty_binary : exists m out, mem_reach m /\ mem_reach out /\ mem_live m = [0x82; 0x00] /\ ws_unpack m out = None.
Proof.
  exists (mem_cat mem_create [0x82; 0x00]), mem_create. split; [exists [OpAppend [0x82; 0x00]]; reflexivity|].
  split; [exists []; reflexivity|]. split; vm_compute; reflexivity.
Qed.
