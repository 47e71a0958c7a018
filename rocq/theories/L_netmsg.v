(** Lemmas about the binary form of network messages. *)
From Verif Require Import Base S_memory M_memory L_memory S_netmsg M_netmsg.
From Coq Require Import ZifyBool ZifyNat.

Definition is_some {A} (o : option A) : bool := match o with Some _ => true | None => false end.

(** ** decimal text *)
Lemma lld_pos : forall fuel v, 0 <= v -> Forall (fun c => 48 <= c <= 57) (lld_loop fuel v).
Proof.
  induction fuel as [|f IH]; intros v H; cbn [lld_loop]; [constructor|].
  pose proof (Z.mod_pos_bound v 10 ltac:(lia)). constructor; [lia|].
  destruct (0 <? v / 10); [|constructor]. apply IH. apply Z.div_pos; lia.
Qed.

Lemma digits_app : forall a b acc, Forall (fun c => 48 <= c <= 57) a ->
  atoll_digits (a ++ b) acc = atoll_digits b (atoll_digits a acc).
Proof.
  induction a as [|c a IH]; intros b acc H; [reflexivity|]. inversion H as [|? ? H1 H2]; subst.
  cbn [app atoll_digits]. replace ((48 <=? c) && (c <=? 57)) with true by lia. apply IH. exact H2.
Qed.

Lemma lld_val : forall fuel v, 0 <= v < 10 ^ Z.of_nat fuel -> atoll_digits (rev (lld_loop fuel v)) 0 = v.
Proof.
  induction fuel as [|f IH]; intros v H; [cbn in *; lia|].
  cbn [lld_loop rev]. pose proof (Z.div_mod v 10 ltac:(lia)) as D. pose proof (Z.mod_pos_bound v 10 ltac:(lia)) as B.
  assert (P : 0 <= v / 10) by (apply Z.div_pos; lia).
  assert (F : forall l, Forall (fun c => 48 <= c <= 57) l -> Forall (fun c => 48 <= c <= 57) (rev l)).
  { intros l Hl. apply Forall_rev. exact Hl. }
  destruct (Z.ltb_spec 0 (v / 10)) as [E|E].
  - rewrite digits_app by (apply F, lld_pos; lia). rewrite IH.
    + cbn [atoll_digits]. match goal with |- context[if ?c then _ else _] => replace c with true by lia end. lia.
    + split; [lia|]. apply Z.div_lt_upper_bound; [lia|].
      replace (10 * 10 ^ Z.of_nat f) with (10 ^ Z.of_nat (S f)); [lia|].
      rewrite Nat2Z.inj_succ, Z.pow_succ_r by lia. reflexivity.
  - cbn [rev app atoll_digits]. match goal with |- context[if ?c then _ else _] => replace c with true by lia end. lia.
Qed.

Lemma lld_len : forall fuel v, 0 <= v < 10 ^ 10 -> (length (lld_loop fuel v) <= 10)%nat.
Proof.
  assert (G : forall n fuel v, 0 <= v < 10 ^ Z.of_nat n -> (1 <= n)%nat -> (length (lld_loop fuel v) <= n)%nat).
  { induction n as [|n IH]; intros fuel v H Hn; [lia|]. destruct fuel as [|fuel]; cbn [lld_loop length]; [lia|].
    destruct (Z.ltb_spec 0 (v / 10)) as [E|E]; cbn [length]; [|lia].
    assert (K : v / 10 < 10 ^ Z.of_nat n).
    { apply Z.div_lt_upper_bound; [lia|]. rewrite Nat2Z.inj_succ, Z.pow_succ_r in H by lia. lia. }
    destruct n as [|n]; [cbn in K; lia|]. specialize (IH fuel (v / 10) ltac:(lia) ltac:(lia)). lia. }
  intros fuel v H. apply (G 10%nat); [exact H|lia].
Qed.

Lemma atoll_lldtoa : forall v, - 2 ^ 31 <= v < 2 ^ 31 -> atoll (lldtoa v) = v.
Proof.
  intros v H. change (2 ^ 31) with 2147483648 in H. unfold lldtoa.
  assert (G : forall u, 0 <= u < 2147483649 -> atoll_digits (rev (lld_loop 20 u)) 0 = u).
  { intros u Hu. apply lld_val. change (10 ^ Z.of_nat 20) with 100000000000000000000. lia. }
  assert (C : forall u, - 2147483648 <= u < 2147483648 -> clamp64 u = u).
  { intros u Hu. unfold clamp64. change (2 ^ 63) with 9223372036854775808. lia. }
  destruct (Z.ltb_spec v 0) as [E|E].
  - unfold atoll. cbn [skip_space]. change (is_space 45) with false. cbn match.
    rewrite G by lia. rewrite C by lia. lia.
  - assert (F : Forall (fun c => 48 <= c <= 57) (rev (lld_loop 20 v))) by (apply Forall_rev, lld_pos; lia).
    pose proof (G v ltac:(lia)) as Gv. unfold atoll.
    destruct (rev (lld_loop 20 v)) as [|c l] eqn:El.
    + cbn [atoll_digits] in Gv. cbn. subst v. reflexivity.
    + apply Forall_inv in F. cbn beta in F. cbn [skip_space]. replace (is_space c) with false by (unfold is_space; lia).
      assert (X : c = 48 \/ c = 49 \/ c = 50 \/ c = 51 \/ c = 52 \/ c = 53 \/ c = 54 \/ c = 55 \/ c = 56 \/ c = 57) by lia.
      transitivity (clamp64 (atoll_digits (c :: l) 0)); [|rewrite Gv; apply C; lia].
      clear - X. repeat (destruct X as [->|X]; [reflexivity|]). subst c. reflexivity.
Qed.

Lemma lldtoa_len : forall v, - 2 ^ 31 <= v < 2 ^ 31 -> (1 <= length (lldtoa v) <= 11)%nat.
Proof.
  intros v H. change (2 ^ 31) with 2147483648 in H. unfold lldtoa.
  assert (G : forall u, 0 <= u < 2147483649 -> (1 <= length (rev (lld_loop 20 u)) <= 10)%nat).
  { intros u Hu. rewrite rev_length. split; [|apply lld_len; change (10 ^ 10) with 10000000000; lia].
    change 20%nat with (S 19). cbn [lld_loop length]. lia. }
  destruct (Z.ltb_spec v 0); cbn [length]; [specialize (G (- v) ltac:(lia))|specialize (G v ltac:(lia))]; lia.
Qed.

(** ** what is written *)
Definition enc_str (ok : bool) (s : option (list Z)) : list Z :=
  if ok then ssize_bytes (match s with Some b => Z.of_nat (length b) | None => 0 end) ++
             (match s with Some b => b | None => [] end) else [].
Definition enc_int (ok : bool) (v : Z) : list Z :=
  if ok then (if to_s 32 v =? 0 then ssize_bytes 0
              else ssize_bytes (Z.of_nat (length (lldtoa (to_s 32 v)))) ++ lldtoa (to_s 32 v)) else [].

Lemma str_set_spec : forall m ok s, mem_ok m ->
  mem_ok (str_set m ok s) /\ mem_live (str_set m ok s) = mem_live m ++ enc_str ok s.
Proof.
  intros m ok s H. unfold str_set, enc_str. destruct ok; [|rewrite app_nil_r; easy].
  destruct s as [b|].
  - destruct (mem_cat_ssize_spec m (Z.of_nat (length b)) H ltac:(lia)) as [A B].
    destruct (Z.ltb_spec 0 (Z.of_nat (length b))).
    + destruct (mem_cat_spec _ b A) as [C D]. split; [exact C|]. rewrite D, B, <- app_assoc. reflexivity.
    + destruct b; [|cbn [length] in *; lia]. rewrite app_nil_r. split; [exact A|exact B].
  - destruct (mem_cat_ssize_spec m 0 H ltac:(lia)) as [A B]. rewrite app_nil_r. split; [exact A|exact B].
Qed.
Lemma int_set_spec : forall m ok v, mem_ok m ->
  mem_ok (int_set m ok v) /\ mem_live (int_set m ok v) = mem_live m ++ enc_int ok v.
Proof.
  intros m ok v H. unfold int_set, enc_int. destruct ok; [|rewrite app_nil_r; easy].
  destruct (to_s 32 v =? 0).
  - apply mem_cat_ssize_spec; [exact H|lia].
  - destruct (mem_cat_ssize_spec m (Z.of_nat (length (lldtoa (to_s 32 v)))) H ltac:(lia)) as [A B].
    destruct (mem_cat_spec _ (lldtoa (to_s 32 v)) A) as [C D]. split; [exact C|]. rewrite D, B, <- app_assoc. reflexivity.
Qed.

Lemma encoded_live : forall msg out, mem_ok out -> list_tag (m_tag msg) = false ->
  mem_live (encoded_normal msg out) =
    match m_name msg with Some n => n | None => [] end ++ 58 :: sw_byte msg ::
    enc_int (sw_sno msg) (m_sno msg) ++ enc_str (sw_service msg) (m_service msg) ++
    enc_str (sw_cmd msg) (m_cmd msg) ++ enc_str (sw_subject msg) (m_subject msg) ++
    enc_int (sw_tag msg) (m_tag msg) ++ enc_str (sw_info msg) (m_info msg).
Proof.
  intros msg out H L. unfold encoded_normal. rewrite L.
  destruct (mem_clear_spec out H) as [A0 B0].
  set (o1 := match m_name msg with Some n => mem_cat (mem_clear out) n | None => mem_clear out end).
  assert (K1 : mem_ok o1 /\ mem_live o1 = match m_name msg with Some n => n | None => [] end).
  { unfold o1. destruct (m_name msg) as [n|]; [|easy]. destruct (mem_cat_spec _ n A0) as [C D]. rewrite D, B0. easy. }
  destruct K1 as [A1 B1].
  destruct (mem_cat_spec _ [58] A1) as [A2 B2].
  destruct (mem_cat_spec _ [sw_byte msg] A2) as [A3 B3].
  destruct (int_set_spec _ (sw_sno msg) (m_sno msg) A3) as [A4 B4].
  destruct (str_set_spec _ (sw_service msg) (m_service msg) A4) as [A5 B5].
  destruct (str_set_spec _ (sw_cmd msg) (m_cmd msg) A5) as [A6 B6].
  destruct (str_set_spec _ (sw_subject msg) (m_subject msg) A6) as [A7 B7].
  destruct (int_set_spec _ (sw_tag msg) (m_tag msg) A7) as [A8 B8].
  destruct (str_set_spec _ (sw_info msg) (m_info msg) A8) as [A9 B9].
  rewrite B9, B8, B7, B6, B5, B4, B3, B2, B1, <- !app_assoc. reflexivity.
Qed.

(** ** what is read *)
Definition same_buf (m m' : mem) : Prop := mbuf m' = mbuf m /\ mmax m' = mmax m.

Lemma move_buf : forall m n, same_buf m (mem_move m n).
Proof. intros. unfold mem_move. destruct (Nat.leb _ _); split; reflexivity. Qed.

Lemma live_len : forall m a b, mem_ok m -> mem_live m = a ++ b -> a <> [] ->
  Z.of_nat (moff m) + Z.of_nat (length a) <= mmax m.
Proof.
  intros m a b [H1 H2] H Ha. apply (f_equal (@length Z)) in H. unfold mem_live, msize in *.
  rewrite skipn_length, app_length in H. destruct a; [easy|]. cbn [length] in *. lia.
Qed.

Lemma peek_here : forall stale m b rest, mem_ok m -> mem_live m = b ++ rest ->
  mem_peek stale m (moff m) (length b) = Some b.
Proof.
  intros stale m b rest O L. pose proof (mem_peek_live stale m b rest 0 O) as K. rewrite Nat.add_0_r, skipn_O in K.
  exact (K L).
Qed.

Lemma get_sds_spec : forall stale m ok s rest, mem_ok m -> text_ok s -> (ok = is_some s) ->
  mem_live m = enc_str ok s ++ rest ->
  exists m', get_sds stale m ok = Some (s, m') /\ mem_ok m' /\ mem_live m' = rest /\ same_buf m m'.
Proof.
  intros stale m ok s rest H T -> L. destruct s as [b|]; cbn [is_some enc_str text_ok] in *.
  - destruct T as [Tn [_ Tl]]. change (2 ^ 63) with 9223372036854775808 in Tl. rewrite <- app_assoc in L.
    destruct (mem_get_ssize_spec stale m (Z.of_nat (length b)) _ H ltac:(change (2 ^ 64) with 18446744073709551616; lia) L)
      as [m1 [E [O1 [L1 [B1 [_ M1]]]]]].
    unfold get_sds. rewrite E. assert (0 < Z.of_nat (length b)) by (destruct b; [easy|cbn [length]; lia]).
    replace (0 <? Z.of_nat (length b)) with true by lia.
    pose proof (live_len m1 b rest O1 L1 Tn). replace (mmax m1 <? Z.of_nat (moff m1) + Z.of_nat (length b)) with false by lia.
    rewrite Nat2Z.id. rewrite (peek_here stale m1 b rest O1 L1).
    destruct (mem_move_live m1 b rest (length b) O1 L1 eq_refl) as [O2 L2].
    exists (mem_move m1 (length b)). split; [reflexivity|]. split; [exact O2|]. split; [exact L2|].
    destruct (move_buf m1 (length b)) as [X Y]. split; congruence.
  - exists m. split; [reflexivity|]. split; [exact H|]. split; [exact L|]. split; reflexivity.
Qed.

Lemma get_int_spec : forall stale m ok v rest, mem_ok m -> - 2 ^ 31 <= v < 2 ^ 31 ->
  mem_live m = enc_int ok v ++ rest ->
  exists m', get_int stale m ok = Some (if ok then v else 0, m') /\ mem_ok m' /\ mem_live m' = rest /\ same_buf m m'.
Proof.
  intros stale m ok v rest H V L. unfold enc_int in L. destruct ok.
  2:{ exists m. split; [reflexivity|]. split; [exact H|]. split; [exact L|]. split; reflexivity. }
  rewrite to_s_small in L by (change (2 ^ (32 - 1)) with (2 ^ 31); lia).
  unfold get_int. destruct (Z.eqb_spec v 0) as [->|Hv].
  - destruct (mem_get_ssize_spec stale m 0 _ H ltac:(change (2 ^ 64) with 18446744073709551616; lia) L)
      as [m1 [E [O1 [L1 [B1 [_ M1]]]]]]. rewrite E. exists m1. cbn [Z.ltb Z.compare].
    split; [reflexivity|]. split; [exact O1|]. split; [exact L1|]. split; assumption.
  - pose proof (lldtoa_len v V) as Ln. rewrite <- app_assoc in L.
    destruct (mem_get_ssize_spec stale m (Z.of_nat (length (lldtoa v))) _ H ltac:(change (2 ^ 64) with 18446744073709551616; lia) L)
      as [m1 [E [O1 [L1 [B1 [_ M1]]]]]]. rewrite E.
    replace (0 <? Z.of_nat (length (lldtoa v))) with true by lia.
    replace (Z.min (Z.of_nat (length (lldtoa v))) 31) with (Z.of_nat (length (lldtoa v))) by lia.
    rewrite Nat2Z.id. rewrite (peek_here stale m1 _ rest O1 L1).
    rewrite (atoll_lldtoa v V).
    destruct (mem_move_live m1 (lldtoa v) rest (length (lldtoa v)) O1 L1 eq_refl) as [O2 L2].
    exists (mem_move m1 (length (lldtoa v))). split; [reflexivity|]. split; [exact O2|]. split; [exact L2|].
    destruct (move_buf m1 (length (lldtoa v))) as [X Y]. split; congruence.
Qed.

Lemma str_pos_spec : forall n l k i, Forall (fun c => ~ In c [0; 58; 91; 93; 123; 125]) n ->
  (length n < k)%nat -> str_pos (n ++ 58 :: l) k i = Some (i + length n)%nat.
Proof.
  induction n as [|c n IH]; intros l k i H Hk; (destruct k as [|k]; [cbn [length] in Hk; lia|]); cbn [app str_pos].
  - cbn. f_equal. lia.
  - inversion H as [|? ? H1 H2]; subst. cbn [In] in H1.
    replace (existsb (Z.eqb c) [123; 125; 91; 93; 0]) with false.
    2:{ cbn [existsb]. symmetry. repeat (rewrite (proj2 (Z.eqb_neq _ _)) by (intros ->; tauto)). reflexivity. }
    destruct (Z.eqb_spec c 58) as [->|_]; [tauto|].
    rewrite IH by (auto; cbn [length] in Hk; lia). f_equal. cbn [length]. lia.
Qed.

Lemma sw_bits : forall b0 b1 b2 b3 b4 b5 b6,
  let z := b2z b0 0 + b2z b1 1 + b2z b2 2 + b2z b3 3 + b2z b4 4 + b2z b5 5 + b2z b6 6 + 128 in
  Z.testbit z 0 = b0 /\ Z.testbit z 1 = b1 /\ Z.testbit z 2 = b2 /\ Z.testbit z 3 = b3 /\
  Z.testbit z 4 = b4 /\ Z.testbit z 5 = b5 /\ Z.testbit z 6 = b6 /\ Z.testbit z 7 = true.
Proof. intros [] [] [] [] [] [] []; vm_compute; repeat split. Qed.

Lemma decode_encode : forall msg stale inp rest out,
  mem_ok out -> mem_ok inp ->
  match m_name msg with Some n => n <> [] /\ plain_name n | None => True end ->
  sw_service msg = is_some (m_service msg) -> sw_cmd msg = is_some (m_cmd msg) ->
  sw_subject msg = is_some (m_subject msg) -> sw_info msg = is_some (m_info msg) ->
  text_ok (m_service msg) -> text_ok (m_cmd msg) -> text_ok (m_subject msg) -> text_ok (m_info msg) ->
  - 2 ^ 31 <= m_sno msg < 2 ^ 31 -> (sw_sno msg = false -> m_sno msg = 0) ->
  - 128 <= m_tag msg < 128 -> (sw_tag msg = false -> m_tag msg = 0) ->
  list_tag (m_tag msg) = false -> m_argvs msg = None ->
  mem_live inp = mem_live (encoded_normal msg out) ++ rest ->
  decoded_normal stale inp = Some (DMsg msg, inp).
Proof.
  intros msg stale inp rest out Ho Hi Hn S1 S2 S3 S4 T1 T2 T3 T4 V1 V1' V2 V2' Ht Ha L.
  assert (V2b : - 2 ^ 31 <= m_tag msg < 2 ^ 31) by (clear - V2; change (2 ^ 31) with 2147483648; lia).
  rewrite (encoded_live msg out Ho Ht) in L.
  set (name := match m_name msg with Some n => n | None => [] end) in *.
  assert (Pn : (length name < 128)%nat /\ Forall (fun c => ~ In c [0; 58; 91; 93; 123; 125]) name).
  { unfold name. destruct (m_name msg); [exact (proj2 Hn)|]. split; [cbn; lia|constructor]. }
  rewrite <- app_assoc in L. cbn [app] in L.
  unfold decoded_normal.
  assert (Hsz : (length name < mem_get_size inp)%nat).
  { unfold mem_get_size. apply (f_equal (@length Z)) in L. unfold mem_live in L. rewrite skipn_length, app_length in L.
    cbn [length] in L. clear - L. lia. }
  assert (Hk : (length name < Nat.min (mem_get_size inp) 128)%nat) by (destruct Pn as [Pn _]; clear - Hsz Pn; lia).
  rewrite L at 1. rewrite (str_pos_spec _ _ _ _ (proj2 Pn) Hk), Nat.add_0_l.
  assert (Nm : (if Nat.eqb (length name) 0 then None else Some (firstn (length name) (mem_live inp))) = m_name msg).
  { rewrite L, firstn_app, Nat.sub_diag, firstn_all, firstn_O, app_nil_r. unfold name.
    destruct (m_name msg) as [n|]; [|reflexivity]. destruct n; [easy|reflexivity]. }
  rewrite Nm.
  set (body := enc_int (sw_sno msg) (m_sno msg) ++ enc_str (sw_service msg) (m_service msg) ++
    enc_str (sw_cmd msg) (m_cmd msg) ++ enc_str (sw_subject msg) (m_subject msg) ++
    enc_int (sw_tag msg) (m_tag msg) ++ enc_str (sw_info msg) (m_info msg)) in *.
  assert (L' : mem_live inp = (name ++ [58]) ++ sw_byte msg :: body ++ rest) by (rewrite L, <- app_assoc; reflexivity).
  destruct (mem_move_live inp _ _ (length name + 1) Hi L' ltac:(rewrite app_length; reflexivity)) as [O0 L0].
  set (m0 := mem_move inp (length name + 1)) in *.
  assert (By : mem_byte stale m0 (moff m0) = Some (sw_byte msg)).
  { rewrite <- (Nat.add_0_r (moff m0)). apply mem_byte_live; [exact O0|]. rewrite L0. reflexivity. }
  rewrite By.
  pose proof (sw_bits (sw_sno msg) (sw_service msg) (sw_cmd msg) (sw_subject msg) (sw_tag msg) (sw_info msg) (sw_more msg)) as SB.
  cbv zeta in SB. fold (sw_byte msg) in SB. destruct SB as [Z0 [Z1 [Z2 [Z3 [Z4 [Z5 [Z6 Z7]]]]]]].
  rewrite Z0, Z1, Z2, Z3, Z4, Z5, Z6, Z7. cbn [negb].
  destruct (mem_move_live m0 [sw_byte msg] _ 1 O0 L0 eq_refl) as [O1 L1].
  set (m1 := mem_move m0 1) in *. unfold body in L1. rewrite <- !app_assoc in L1.
  destruct (get_int_spec stale m1 _ _ _ O1 V1 L1) as [m2 [E2 [O2 [L2 B2]]]]. rewrite E2.
  destruct (get_sds_spec stale m2 _ _ _ O2 T1 S1 L2) as [m3 [E3 [O3 [L3 B3]]]]. rewrite E3.
  destruct (get_sds_spec stale m3 _ _ _ O3 T2 S2 L3) as [m4 [E4 [O4 [L4 B4]]]]. rewrite E4.
  destruct (get_sds_spec stale m4 _ _ _ O4 T3 S3 L4) as [m5 [E5 [O5 [L5 B5]]]]. rewrite E5.
  destruct (get_int_spec stale m5 _ _ _ O5 V2b L5) as [m6 [E6 [O6 [L6 B6]]]]. rewrite E6.
  assert (Tg : (if sw_tag msg then m_tag msg else 0) = m_tag msg) by (destruct (sw_tag msg); [easy|now rewrite V2']).
  assert (Sn : (if sw_sno msg then m_sno msg else 0) = m_sno msg) by (destruct (sw_sno msg); [easy|now rewrite V1']).
  assert (T8 : to_s 8 (m_tag msg) = m_tag msg) by (clear - V2; apply to_s_small; [lia|change (2 ^ (8 - 1)) with 128; lia]).
  rewrite Tg, Sn, T8, Ht.
  destruct (get_sds_spec stale m6 _ _ _ O6 T4 S4 L6) as [m7 [E7 [O7 [L7 B7]]]]. rewrite E7.
  f_equal. f_equal.
  - rewrite <- Ha. destruct msg; reflexivity.
  - assert (BB : same_buf inp m7).
    { destruct (move_buf inp (length name + 1)) as [x1 x2]. destruct (move_buf m0 1) as [y1 y2].
      fold m0 in x1, x2. fold m1 in y1, y2.
      destruct B2, B3, B4, B5, B6, B7. split; congruence. }
    destruct BB as [BB1 BB2]. unfold mem_jumpto. rewrite BB1.
    destruct (Nat.ltb_spec (moff inp) (length (mbuf inp))).
    + rewrite BB2. destruct inp; reflexivity.
    + exfalso. unfold mem_get_size in Hsz. clear - Hsz H. lia.
Qed.

Lemma c42_main : forall stale inp, mem_live inp = [58; 130; 253; 0; 0; 16; 0; 120] -> mem_ok inp ->
  mmax inp <= 1000000 -> decoded_normal stale inp = None.
Proof.
  intros stale inp L O M. unfold decoded_normal.
  assert (Sz : mem_get_size inp = 8%nat).
  { apply (f_equal (@length Z)) in L. unfold mem_live in L. rewrite skipn_length in L. exact L. }
  rewrite Sz, L. change (str_pos [58; 130; 253; 0; 0; 16; 0; 120] (Nat.min 8 128) 0) with (Some 0%nat). cbn match.
  destruct (mem_move_live inp [58] _ (0 + 1) O L eq_refl) as [O0 L0]. set (m0 := mem_move inp (0 + 1)) in *.
  assert (By : mem_byte stale m0 (moff m0) = Some 130).
  { rewrite <- (Nat.add_0_r (moff m0)). apply mem_byte_live; [exact O0|]. rewrite L0. reflexivity. }
  rewrite By.
  change (Z.testbit 130 7) with true. change (Z.testbit 130 0) with false. change (Z.testbit 130 1) with true. cbn [negb].
  destruct (mem_move_live m0 [130] _ 1 O0 L0 eq_refl) as [O1 L1]. set (m1 := mem_move m0 1) in *.
  unfold get_int at 1. unfold get_sds at 1.
  assert (L1' : mem_live m1 = ssize_bytes 1048576 ++ [120]) by (rewrite L1; reflexivity).
  destruct (mem_get_ssize_spec stale m1 1048576 [120] O1 ltac:(change (2 ^ 64) with 18446744073709551616; lia) L1')
    as [m2 [E [O2 [L2 [B2 [_ M2]]]]]].
  rewrite E. change (0 <? 1048576) with true. cbn match.
  destruct (move_buf inp (0 + 1)) as [_ X1]. destruct (move_buf m0 1) as [_ X2]. fold m0 in X1. fold m1 in X2.
  replace (mmax m2 <? Z.of_nat (moff m2) + 1048576) with true by lia. reflexivity.
Qed.
