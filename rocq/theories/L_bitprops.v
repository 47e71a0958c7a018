(** Round-trip proofs for the bit stream encoders. *)
From Verif Require Import Base S_bits M_bits L_bits L_bitcodec.
From Coq Require Import ZifyBool ZifyNat.

Lemma nth_nth_error (a b : list Z) k : length a = length b -> nth k a 0 = nth k b 0 ->
  nth_error a k = nth_error b k.
Proof.
  intros HL H. destruct (lt_dec k (length a)) as [Hk|Hk].
  - rewrite (nth_error_nth' a 0) by lia. rewrite (nth_error_nth' b 0) by lia. congruence.
  - rewrite (proj2 (nth_error_None a k)) by lia. symmetry. apply nth_error_None. lia.
Qed.

Definition fbits (fs : list (nat * Z)) : list bool :=
  concat (map (fun f => tobits (fst f) (snd f)) fs).

Lemma fbits_length fs : length (fbits fs) = list_sum (map fst fs).
Proof.
  induction fs as [|[n v] fs IH]; [reflexivity|]. unfold fbits in *. cbn [map concat fst snd].
  change (list_sum (n :: map fst fs)) with (n + list_sum (map fst fs))%nat.
  rewrite app_length, tobits_length, IH. reflexivity.
Qed.

Lemma put_all_wr fs : forall s, Forall is_byte (bdat s) ->
  Forall (fun f => (1 <= fst f <= 64)%nat) fs ->
  (bpos s + list_sum (map fst fs) <= 8 * length (bdat s))%nat ->
  exists s', put_all s fs = Some s' /\ wr s s' (fbits fs).
Proof.
  induction fs as [|[n v] fs IH]; intros s Hd Hf Hl.
  - exists s. split; [reflexivity|]. apply wr_nil; assumption.
  - inversion Hf as [|? ? Hn Hf']; subst. cbn [map fst] in *.
    change (list_sum (n :: map fst fs)) with (n + list_sum (map fst fs))%nat in *.
    destruct (bput_spec s v n Hd) as (s1 & E1 & W1); [lia|lia|].
    destruct (IH s1) as (s2 & E2 & W2).
    + apply (wr_byte _ _ _ W1).
    + assumption.
    + rewrite (wr_len _ _ _ W1), (wr_pos _ _ _ W1), tobits_length. lia.
    + exists s2. cbn [put_all]. rewrite E1. split; [assumption|].
      change (fbits ((n, v) :: fs)) with (tobits n v ++ fbits fs).
      eapply wr_app; eassumption.
Qed.

Lemma get_all_rd fs : forall s s', Forall (fun f => (1 <= fst f <= 64)%nat) fs ->
  rd s s' (fbits fs) ->
  get_all s (map fst fs) = Some (map (fun f => snd f mod 2 ^ Z.of_nat (fst f)) fs, s').
Proof.
  induction fs as [|[n v] fs IH]; intros s s' Hf H.
  - destruct H as [A1 A2 A3 A4 A5]. cbn in *. destruct s, s'; cbn in *. subst. rewrite Nat.add_0_r. reflexivity.
  - inversion Hf as [|? ? Hn Hf']; subst.
    change (fbits ((n, v) :: fs)) with (tobits n v ++ fbits fs) in H.
    apply rd_app in H. destruct H as (s1 & R1 & R2).
    cbn [map get_all fst snd]. rewrite (bget_rd s s1 n v R1) by (cbn in Hn; lia).
    rewrite (IH s1 s' Hf' R2). reflexivity.
Qed.

Lemma wr_frame s s' bs : wr s s' bs ->
  length (bdat s') = length (bdat s) /\ same_bits (bdat s') (bdat s) 0 (bpos s)
  /\ (forall k, (bpos s' <= 8 * k)%nat -> nth_error (bdat s') k = nth_error (bdat s) k).
Proof.
  intros W. split; [apply W|]. split.
  - intros i Hi. apply (wr_old _ _ _ W). lia.
  - intros k Hk. apply nth_nth_error; [apply W|]. apply (wr_rest _ _ _ W). assumption.
Qed.

Lemma bit_fields_lemma s fs : Forall is_byte (bdat s) ->
  Forall (fun f => (1 <= fst f <= 64)%nat) fs ->
  (bpos s + list_sum (map fst fs) <= 8 * length (bdat s))%nat ->
  exists s', put_all s fs = Some s'
    /\ bpos s' = (bpos s + list_sum (map fst fs))%nat
    /\ length (bdat s') = length (bdat s)
    /\ same_bits (bdat s') (bdat s) 0 (bpos s)
    /\ (forall k, (bpos s' <= 8 * k)%nat -> nth_error (bdat s') k = nth_error (bdat s) k)
    /\ get_all (mkbs (bdat s') (bpos s)) (map fst fs)
       = Some (map (fun f => snd f mod 2 ^ Z.of_nat (fst f)) fs, s').
Proof.
  intros Hd Hf Hl. destruct (put_all_wr fs s Hd Hf Hl) as (s' & E & W).
  exists s'. split; [assumption|]. split; [rewrite (wr_pos _ _ _ W), fbits_length; reflexivity|].
  destruct (wr_frame _ _ _ W) as (F1 & F2 & F3).
  split; [assumption|]. split; [assumption|]. split; [assumption|].
  apply get_all_rd; [assumption|]. apply wr_rd; [assumption|]. rewrite fbits_length. assumption.
Qed.

(** reading from any buffer that still has the written bits *)
Lemma wr_rd_any s s' bs d : wr s s' bs -> (bpos s + length bs <= 8 * length (bdat s))%nat ->
  Forall is_byte d -> length d = length (bdat s) -> same_bits d (bdat s') (bpos s) (bpos s') ->
  rd (mkbs d (bpos s)) (mkbs d (bpos s')) bs.
Proof.
  intros W Hl Hd HL HS. split; cbn [bdat bpos].
  - assumption.
  - intros j Hj. rewrite HS by (rewrite (wr_pos _ _ _ W); lia). apply (wr_new _ _ _ W). assumption.
  - lia.
  - reflexivity.
  - apply W.
Qed.

Lemma bits_mag_length m : (length (bits_mag m) <= 69)%nat.
Proof.
  unfold bits_mag.
  repeat match goal with |- context [if ?c then _ else _] => destruct c end;
  rewrite ?app_length, !tobits_length; lia.
Qed.
Lemma bits_int_length v : (length (bits_int v) <= 70)%nat.
Proof. unfold bits_int. rewrite app_length, tobits_length. assert (H := bits_mag_length (Z.abs v)). lia. Qed.
Lemma bits_uint_length v : (length (bits_uint v) <= 35)%nat.
Proof.
  unfold bits_uint.
  repeat match goal with |- context [if ?c then _ else _] => destruct c end;
  rewrite ?app_length, !tobits_length; lia.
Qed.
Lemma bits_sint_length v : (length (bits_sint v) <= 11)%nat.
Proof.
  unfold bits_sint.
  repeat match goal with |- context [if ?c then _ else _] => destruct c end;
  rewrite ?app_length, !tobits_length; lia.
Qed.
Lemma bits_short_length v : (length (bits_short v) <= 19)%nat.
Proof.
  unfold bits_short.
  repeat match goal with |- context [if ?c then _ else _] => destruct c end;
  rewrite ?app_length, !tobits_length; lia.
Qed.

Lemma int_roundtrip_lemma s v : Forall is_byte (bdat s) -> - 2 ^ 63 < v < 2 ^ 63 ->
  (bpos s + 70 <= 8 * length (bdat s))%nat ->
  exists s', bput_int s v = Some s'
    /\ same_bits (bdat s') (bdat s) 0 (bpos s)
    /\ forall d, Forall is_byte d -> length d = length (bdat s) ->
         same_bits d (bdat s') (bpos s) (bpos s') ->
         bget_int (mkbs d (bpos s)) = Some (v, mkbs d (bpos s')).
Proof.
  intros Hd Hv Hl. assert (HL := bits_int_length v).
  destruct (bput_int_ok s v Hd Hv ltac:(lia)) as (s' & E & W).
  exists s'. split; [assumption|]. split; [apply (wr_frame _ _ _ W)|].
  intros d Hb He HS. apply bget_int_ok; [assumption|]. eapply wr_rd_any; eauto. lia.
Qed.

Lemma incr_int_roundtrip_lemma s v ago : Forall is_byte (bdat s) ->
  - 2 ^ 63 <= v < 2 ^ 63 -> - 2 ^ 63 <= ago < 2 ^ 63 ->
  (v - ago) mod 2 ^ 64 <> 2 ^ 63 ->
  (bpos s + 70 <= 8 * length (bdat s))%nat ->
  exists s', bput_incr_int s v ago = Some s'
    /\ same_bits (bdat s') (bdat s) 0 (bpos s)
    /\ forall d, Forall is_byte d -> length d = length (bdat s) ->
         same_bits d (bdat s') (bpos s) (bpos s') ->
         bget_incr_int (mkbs d (bpos s)) ago = Some (v, mkbs d (bpos s')).
Proof.
  intros Hd Hv Ha Hne Hl.
  assert (Hr : - 2 ^ 63 < to_s 64 (v - ago) < 2 ^ 63).
  { unfold to_s, to_u. cbn zeta.
    assert (H := Z.mod_pos_bound (v - ago) (2 ^ 64) ltac:(lia)).
    change (64 - 1) with 63. destruct (Z.ltb_spec ((v - ago) mod 2 ^ 64) (2 ^ 63)); lia. }
  destruct (int_roundtrip_lemma s _ Hd Hr Hl) as (s' & E & F & G).
  exists s'. split; [exact E|]. split; [exact F|].
  intros d Hb He HS. unfold bget_incr_int. rewrite (G d Hb He HS). f_equal. f_equal.
  rewrite <- (to_s_small 64 v) at 2 by (cbn; lia).
  clear - Hv Ha. unfold to_s, to_u. cbn zeta. change (64 - 1) with 63.
  assert (H := Z.mod_pos_bound (v - ago) (2 ^ 64) ltac:(lia)).
  assert (E : (v - ago) = 2 ^ 64 * ((v - ago) / 2 ^ 64) + (v - ago) mod 2 ^ 64) by (apply Z.div_mod; lia).
  set (q := (v - ago) / 2 ^ 64) in *. set (r := (v - ago) mod 2 ^ 64) in *.
  destruct (Z.ltb_spec r (2 ^ 63)).
  - replace (r + ago) with (v + (- q) * 2 ^ 64) by lia. rewrite Z_mod_plus_full. reflexivity.
  - replace (r - 2 ^ 64 + ago) with (v + (- q - 1) * 2 ^ 64) by lia. rewrite Z_mod_plus_full. reflexivity.
Qed.

Lemma uint_roundtrip_lemma s v : Forall is_byte (bdat s) -> 0 <= v < 2 ^ 32 ->
  (bpos s + 35 <= 8 * length (bdat s))%nat ->
  exists s', bput_uint s v = Some s'
    /\ same_bits (bdat s') (bdat s) 0 (bpos s)
    /\ forall d, Forall is_byte d -> length d = length (bdat s) ->
         same_bits d (bdat s') (bpos s) (bpos s') ->
         bget_uint (mkbs d (bpos s)) = Some (v, mkbs d (bpos s')).
Proof.
  intros Hd Hv Hl. assert (HL := bits_uint_length v).
  destruct (bput_uint_ok s v Hd Hv ltac:(lia)) as (s' & E & W).
  exists s'. split; [assumption|]. split; [apply (wr_frame _ _ _ W)|].
  intros d Hb He HS. apply bget_uint_ok; [assumption|]. eapply wr_rd_any; eauto. lia.
Qed.

Lemma sint_roundtrip_lemma s v : Forall is_byte (bdat s) -> 0 <= v ->
  (bpos s + 11 <= 8 * length (bdat s))%nat ->
  (306 <= v -> bput_sint s v = Some (false, s))
  /\ (v < 306 -> exists s', bput_sint s v = Some (true, s')
    /\ same_bits (bdat s') (bdat s) 0 (bpos s)
    /\ forall d, Forall is_byte d -> length d = length (bdat s) ->
         same_bits d (bdat s') (bpos s) (bpos s') ->
         bget_sint (mkbs d (bpos s)) = Some (v, mkbs d (bpos s'))).
Proof.
  intros Hd Hv Hl. split; [apply bput_sint_reject|]. intros Hv2. assert (HL := bits_sint_length v).
  destruct (bput_sint_ok s v Hd ltac:(lia) ltac:(lia)) as (s' & E & W).
  exists s'. split; [assumption|]. split; [apply (wr_frame _ _ _ W)|].
  intros d Hb He HS. apply bget_sint_ok; [lia|]. eapply wr_rd_any; eauto. lia.
Qed.

Lemma short_roundtrip_lemma s v : Forall is_byte (bdat s) -> 0 <= v ->
  (bpos s + 19 <= 8 * length (bdat s))%nat ->
  (69890 <= v -> bput_short s v = Some (false, s))
  /\ (v < 69890 -> exists s', bput_short s v = Some (true, s')
    /\ same_bits (bdat s') (bdat s) 0 (bpos s)
    /\ forall d, Forall is_byte d -> length d = length (bdat s) ->
         same_bits d (bdat s') (bpos s) (bpos s') ->
         bget_short (mkbs d (bpos s)) = Some (v, mkbs d (bpos s'))).
Proof.
  intros Hd Hv Hl. split; [apply bput_short_reject|]. intros Hv2. assert (HL := bits_short_length v).
  destruct (bput_short_ok s v Hd ltac:(lia) ltac:(lia)) as (s' & E & W).
  exists s'. split; [assumption|]. split; [apply (wr_frame _ _ _ W)|].
  intros d Hb He HS. apply bget_short_ok; [lia|]. eapply wr_rd_any; eauto. lia.
Qed.

(** *** text fields *)
Definition bits_bytes (l : list Z) : list bool := concat (map (tobits 8) l).

Lemma bits_bytes_length l : length (bits_bytes l) = (8 * length l)%nat.
Proof.
  induction l as [|c l IH]; [reflexivity|]. unfold bits_bytes in *. cbn [map concat length].
  rewrite app_length, tobits_length, IH. lia.
Qed.

Lemma bput_bytes_wr l : forall s, Forall is_byte (bdat s) ->
  (bpos s + 8 * length l <= 8 * length (bdat s))%nat ->
  exists s', bput_bytes s l = Some s' /\ wr s s' (bits_bytes l).
Proof.
  induction l as [|c l IH]; intros s Hd Hl.
  - exists s. split; [reflexivity|]. apply wr_nil; assumption.
  - cbn [length] in Hl.
    destruct (bput_spec s c 8 Hd) as (s1 & E1 & W1); [lia|lia|].
    destruct (IH s1) as (s2 & E2 & W2); [apply W1| |].
    + rewrite (wr_len _ _ _ W1), (wr_pos _ _ _ W1), tobits_length. lia.
    + exists s2. cbn [bput_bytes]. rewrite E1. split; [assumption|].
      change (bits_bytes (c :: l)) with (tobits 8 c ++ bits_bytes l). eapply wr_app; eassumption.
Qed.

Lemma bget_bytes_rd l : forall s s', Forall is_byte l -> rd s s' (bits_bytes l) ->
  bget_bytes s (length l) = Some (l, s').
Proof.
  induction l as [|c l IH]; intros s s' Hb H.
  - destruct H as [A1 A2 A3 A4 A5]. cbn in *. destruct s, s'; cbn in *. subst. rewrite Nat.add_0_r. reflexivity.
  - inversion Hb as [|? ? Hc Hb']; subst.
    change (bits_bytes (c :: l)) with (tobits 8 c ++ bits_bytes l) in H.
    apply rd_app in H. destruct H as (s1 & R1 & R2).
    cbn [length bget_bytes]. rewrite (bget_rd_small s s1 8 c R1) by (unfold is_byte in Hc; cbn; lia).
    rewrite (IH s1 s' Hb' R2). reflexivity.
Qed.

Definition bits_chars (o : option (list Z)) : list bool :=
  match o with
  | None | Some [] => tobits 1 0
  | Some l => tobits 1 1 ++ bits_uint (Z.of_nat (length l)) ++ bits_bytes l
  end.

Lemma bits_chars_length o : (length (bits_chars o) <=
   36 + 8 * match o with Some l => length l | None => 0 end)%nat.
Proof.
  destruct o as [[|c l]|]; cbn [bits_chars].
  - rewrite tobits_length; lia.
  - rewrite !app_length, tobits_length, bits_bytes_length.
    assert (H := bits_uint_length (Z.of_nat (length (c :: l)))). lia.
  - rewrite tobits_length; lia.
Qed.

Lemma bput_chars_wr s o : Forall is_byte (bdat s) ->
  match o with Some l => Z.of_nat (length l) < 2 ^ 31 | None => True end ->
  (bpos s + length (bits_chars o) <= 8 * length (bdat s))%nat ->
  exists s', bput_chars s o = Some s' /\ wr s s' (bits_chars o).
Proof.
  intros Hd Ho Hl. destruct o as [[|c l]|].
  - cbn [bput_chars bits_chars] in *. rewrite tobits_length in Hl. apply bput_spec; auto; lia.
  - cbn [bput_chars]. cbn [bits_chars] in *. set (L := c :: l) in *.
    rewrite !app_length, tobits_length in Hl.
    destruct (bput_spec s 1 1 Hd) as (s1 & E1 & W1); [lia|lia|]. rewrite E1.
    destruct (bput_uint_ok s1 (Z.of_nat (length L))) as (s2 & E2 & W2); [apply W1|lia| |].
    { rewrite (wr_len _ _ _ W1), (wr_pos _ _ _ W1), tobits_length. lia. }
    rewrite E2.
    destruct (bput_bytes_wr L s2) as (s3 & E3 & W3); [apply W2| |].
    { rewrite (wr_len _ _ _ W2), (wr_pos _ _ _ W2), (wr_len _ _ _ W1), (wr_pos _ _ _ W1), tobits_length.
      rewrite bits_bytes_length in Hl. lia. }
    exists s3. split; [assumption|]. eapply wr_app; [eassumption|]. eapply wr_app; eassumption.
  - cbn [bput_chars bits_chars] in *. rewrite tobits_length in Hl. apply bput_spec; auto; lia.
Qed.

Lemma bget_chars_rd_none s s' out : rd s s' (bits_chars None) -> bget_chars s out = Some (0, out, s').
Proof.
  intros H. unfold bget_chars. cbn [bits_chars] in H.
  rewrite (bget_rd_small s s' 1 0 H) by (cbn; lia). reflexivity.
Qed.

Lemma bget_chars_rd_some s s' c l out : Forall is_byte (c :: l) -> Z.of_nat (length (c :: l)) < 2 ^ 31 ->
  rd s s' (bits_chars (Some (c :: l))) ->
  bget_chars s out = Some (Z.of_nat (length (c :: l)),
    firstn (length out) ((c :: l) ++ repeat 0 (length out - length (c :: l))), s').
Proof.
  intros Hb Hl H. unfold bget_chars. cbn [bits_chars] in H. set (L := c :: l) in *.
  assert (HL : (0 < length L)%nat) by (subst L; cbn; lia).
  apply rd_app in H. destruct H as (s1 & R1 & H). apply rd_app in H. destruct H as (s2 & R2 & R3).
  rewrite (bget_rd_small s s1 1 1 R1) by (cbn; lia). cbn [Z.eqb].
  rewrite (bget_uint_ok s1 s2 (Z.of_nat (length L)) ltac:(lia) R2).
  rewrite to_s_small by (change (32 - 1) with 31; lia).
  destruct (Z.leb_spec (Z.of_nat (length L)) 0); [lia|].
  rewrite Nat2Z.id. rewrite (bget_bytes_rd L s2 s' Hb R3). reflexivity.
Qed.

(** charcmp against the meaning of a text field *)
Lemma isize_text l : isize_of l = length (text l).
Proof. induction l as [|c l IH]; [reflexivity|]. cbn. destruct (c =? 0); cbn; auto. Qed.

Lemma text_firstn l : text l = firstn (length (text l)) l.
Proof. induction l as [|c l IH]; [reflexivity|]. cbn. destruct (c =? 0); cbn; congruence. Qed.

Lemma text_app_zeros l k : Forall (fun c => c <> 0) l -> text (l ++ repeat 0 k) = l.
Proof.
  induction l as [|c l IH]; intros H.
  - destruct k; reflexivity.
  - inversion H; subst. cbn. destruct (Z.eqb_spec c 0); [contradiction|]. rewrite IH; auto.
Qed.

Lemma text_nz l : Forall (fun c => c <> 0) (text l).
Proof. induction l as [|c l IH]; cbn; [constructor|]. destruct (Z.eqb_spec c 0); constructor; auto. Qed.

Lemma text_length l : (length (text l) <= length l)%nat.
Proof. induction l as [|c l IH]; cbn; [lia|]. destruct (c =? 0); cbn; lia. Qed.

Lemma charcmp_loop_spec s1 : forall s2 size l2, length s1 = length s2 -> s1 <> [] ->
  l2 = (size + length s2)%nat ->
  charcmp_loop s1 s2 (size + isize_of s1) size l2 =
    Some (if list_eq_dec Z.eq_dec (text s1) (text s2) then
            match isize_of s1 with O => size | _ => O end
          else (size + isize_of s1)%nat).
Proof.
  induction s1 as [|c1 s1 IH]; intros s2 size l2 HL Hne Hl2; [congruence|].
  destruct s2 as [|c2 s2]; [discriminate|]. cbn [length] in *.
  cbn [charcmp_loop isize_of text].
  destruct (Z.eqb_spec c1 c2) as [<-|Hc].
  - destruct (Z.eqb_spec c1 0) as [->|Hz].
    + cbn [andb]. rewrite Nat.add_0_r. destruct (list_eq_dec Z.eq_dec [] []); congruence.
    + cbn [andb].
      destruct (Nat.eqb_spec (S size) (size + S (isize_of s1))) as [He|He].
      * (* last character of the first text *)
        assert (Hi : isize_of s1 = 0%nat) by lia. rewrite isize_text in Hi.
        assert (Ht : text s1 = []) by (destruct (text s1); [reflexivity|discriminate]).
        rewrite Ht.
        destruct (Nat.eqb_spec (S size) l2) as [He2|He2].
        -- assert (s2 = []) by (destruct s2; [reflexivity|cbn in *; lia]). subst s2. cbn [text].
           destruct (list_eq_dec Z.eq_dec [c1] [c1]); congruence.
        -- destruct s2 as [|n s2]; [cbn in *; lia|].
           cbn [text]. destruct (Z.eqb_spec n 0).
           ++ destruct (list_eq_dec Z.eq_dec [c1] [c1]); congruence.
           ++ destruct (list_eq_dec Z.eq_dec [c1] (c1 :: n :: text s2)); [discriminate|].
              reflexivity.
      * assert (Hs1 : s1 <> []) by (intros ->; cbn in *; lia).
        replace (size + S (isize_of s1))%nat with (S size + isize_of s1)%nat by lia.
        rewrite (IH s2 (S size) l2 ltac:(lia) Hs1 ltac:(lia)). f_equal.
        destruct (list_eq_dec Z.eq_dec (text s1) (text s2)) as [E|E];
        destruct (list_eq_dec Z.eq_dec (c1 :: text s1) (c1 :: text s2)) as [E'|E']; try congruence.
        destruct (isize_of s1); [lia|reflexivity].
  - f_equal. destruct (Z.eqb_spec c1 0) as [H1|H1]; destruct (Z.eqb_spec c2 0) as [H2|H2]; try congruence.
    + destruct (list_eq_dec Z.eq_dec [] (c2 :: text s2)); [discriminate|]. reflexivity.
    + destruct (list_eq_dec Z.eq_dec (c1 :: text s1) []); [discriminate|]. reflexivity.
    + destruct (list_eq_dec Z.eq_dec (c1 :: text s1) (c2 :: text s2)); [congruence|]. reflexivity.
Qed.

Lemma charcmp_spec s1 s2 : length s1 = length s2 ->
  charcmp s1 (Some s2) =
    Some (if list_eq_dec Z.eq_dec (text s1) (text s2) then O else length (text s1)).
Proof.
  intros HL. unfold charcmp. destruct s2 as [|c2 s2].
  - destruct s1; [|discriminate]. cbn. destruct (list_eq_dec Z.eq_dec [] []); reflexivity.
  - destruct s1 as [|c1 s1]; [discriminate|].
    assert (H := charcmp_loop_spec (c1 :: s1) (c2 :: s2) 0 (length (c2 :: s2)) HL ltac:(discriminate) eq_refl).
    rewrite Nat.add_0_l in H. rewrite H. f_equal.
    destruct (list_eq_dec Z.eq_dec _ _); [destruct (isize_of (c1 :: s1)); reflexivity|apply isize_text].
Qed.

Lemma firstn_repeat0 n k : firstn n (repeat 0 k) = repeat 0 (Nat.min n k).
Proof. revert k; induction n as [|n IH]; intros [|k]; cbn; [reflexivity..|]. rewrite IH. reflexivity. Qed.

Lemma chars_roundtrip_lemma s cur ago out : Forall is_byte (bdat s) -> Forall is_byte cur ->
  length ago = length cur -> length out = length cur -> Z.of_nat (length cur) < 2 ^ 31 ->
  (text cur = [] -> text ago = []) ->
  (bpos s + 36 + 8 * length cur <= 8 * length (bdat s))%nat ->
  exists s', bput_incr_chars s cur (Some ago) = Some s'
    /\ same_bits (bdat s') (bdat s) 0 (bpos s)
    /\ forall d, Forall is_byte d -> length d = length (bdat s) ->
         same_bits d (bdat s') (bpos s) (bpos s') ->
         exists r o, bget_incr_chars (mkbs d (bpos s)) out (Some ago) = Some (r, o, mkbs d (bpos s'))
           /\ length o = length cur /\ text o = text cur.
Proof.
  intros Hd Hc Ha Ho Hlen Hemp Hl. unfold bput_incr_chars.
  rewrite charcmp_spec by congruence.
  assert (HT := text_length cur).
  destruct (list_eq_dec Z.eq_dec (text cur) (text ago)) as [E|E].
  - destruct (bput_chars_wr s None Hd I) as (s' & E' & W).
    { cbn [bits_chars]. rewrite tobits_length. lia. }
    exists s'. split; [exact E'|]. split; [apply (wr_frame _ _ _ W)|].
    intros d Hb He HS. unfold bget_incr_chars.
    rewrite (bget_chars_rd_none _ (mkbs d (bpos s'))).
    2:{ eapply wr_rd_any; eauto. cbn [bits_chars]. rewrite tobits_length. lia. }
    cbn [Z.eqb]. eexists _, _. split; [reflexivity|].
    rewrite Ho, Ha, Nat.min_id, Nat.sub_diag. cbn [repeat]. rewrite app_nil_r.
    rewrite firstn_all2 by lia. split; [assumption|]. symmetry; assumption.
  - destruct (length (text cur)) as [|k] eqn:Ek.
    { destruct (text cur); [|discriminate]. rewrite Hemp in E by reflexivity. congruence. }
    assert (Et : firstn (S k) cur = text cur) by (rewrite <- Ek; symmetry; apply text_firstn).
    rewrite Et. destruct (text cur) as [|c l] eqn:Etx; [discriminate|].
    assert (Hbt : Forall is_byte (c :: l)).
    { rewrite <- Et. apply Forall_forall. intros x Hx. rewrite Forall_forall in Hc. apply Hc.
      rewrite <- (firstn_skipn (S k) cur). apply in_or_app. left. assumption. }
    assert (HB := bits_chars_length (Some (c :: l))).
    destruct (bput_chars_wr s (Some (c :: l)) Hd) as (s' & E' & W); [lia|cbn [length] in *; lia|].
    exists s'. split; [exact E'|]. split; [apply (wr_frame _ _ _ W)|].
    intros d Hb He HS. unfold bget_incr_chars.
    rewrite (bget_chars_rd_some _ (mkbs d (bpos s')) c l out Hbt).
    2:{ lia. }
    2:{ eapply wr_rd_any; eauto. cbn [length] in *; lia. }
    destruct (Z.eqb_spec (Z.of_nat (length (c :: l))) 0); [cbn in *; lia|].
    eexists _, _. split; [reflexivity|].
    assert (HE : firstn (length out) ((c :: l) ++ repeat 0 (length out - length (c :: l)))
                 = (c :: l) ++ repeat 0 (length out - length (c :: l))).
    { apply firstn_all2. rewrite app_length, repeat_length. lia. }
    rewrite HE. split; [rewrite app_length, repeat_length; lia|].
    rewrite text_app_zeros; [reflexivity|]. rewrite <- Etx. apply text_nz.
Qed.
