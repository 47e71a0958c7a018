(** The compressor's output fits when the input is small enough. *)
From Verif Require Import Base S_bits M_bits L_bits L_bitcodec L_bitprops L_ext M_dynamic M_incrzip S_incrzip
  L_incrzip L_incrzip1.
From Coq Require Import ZifyBool ZifyNat.

(** [p] succeeds with [k] free bits, and moves the position by at most [k] *)
Record adv (s s' : bstream) (k : nat) : Prop := mkadv {
  av_byte : Forall is_byte (bdat s'); av_len : length (bdat s') = length (bdat s);
  av_pos : (bpos s' <= bpos s + k)%nat }.

Definition room (s : bstream) (k : nat) : Prop := Forall is_byte (bdat s) /\ (bpos s + k <= 8 * length (bdat s))%nat.

Lemma room_adv s s' k m : room s (k + m) -> adv s s' k -> room s' m.
Proof. intros [H1 H2] [A1 A2 A3]. split; [assumption|]. rewrite A2. lia. Qed.

Lemma adv_wr s s' bs k : wr s s' bs -> (length bs <= k)%nat -> adv s s' k.
Proof. intros W H. split; [apply W|apply W|]. rewrite (wr_pos _ _ _ W). lia. Qed.

Lemma adv_trans s s1 s2 k m : adv s s1 k -> adv s1 s2 m -> adv s s2 (k + m).
Proof. intros [A1 A2 A3] [B1 B2 B3]. split; [assumption|congruence|lia]. Qed.

Lemma adv_refl s k : Forall is_byte (bdat s) -> adv s s k.
Proof. intros H. split; auto. lia. Qed.

Lemma room_le s k m : room s k -> (m <= k)%nat -> room s m.
Proof. intros [H1 H2] H. split; [assumption|lia]. Qed.

Lemma bput_fits s v n : room s n -> (n <= 64)%nat -> exists s', bput s v n = Some s' /\ adv s s' n.
Proof.
  intros [H1 H2] Hn. destruct (bput_spec s v n H1 Hn H2) as (s' & E & W). exists s'. split; [assumption|].
  eapply adv_wr; [eassumption|]. rewrite tobits_length. lia.
Qed.

Lemma bits_uint_le v : (length (bits_uint v) <= 35)%nat.
Proof.
  unfold bits_uint.
  repeat match goal with |- context [if ?b then _ else _] => destruct b end;
    rewrite app_length, !tobits_length; lia.
Qed.

Lemma bits_int_le v : (length (bits_int v) <= 70)%nat.
Proof.
  unfold bits_int, bits_mag. rewrite app_length, tobits_length.
  repeat match goal with |- context [if ?b then _ else _] => destruct b end;
    rewrite ?app_length, !tobits_length; lia.
Qed.

Lemma bput_uint_fits s v : room s 35 -> 0 <= v < 2 ^ 32 -> exists s', bput_uint s v = Some s' /\ adv s s' 35.
Proof.
  intros [H1 H2] Hv. assert (L := bits_uint_le v).
  destruct (bput_uint_ok s v H1 Hv ltac:(lia)) as (s' & E & W). exists s'. split; [assumption|]. eapply adv_wr; eassumption.
Qed.

Lemma bput_int_fits s v : room s 70 -> - 2 ^ 63 <= v < 2 ^ 63 -> exists s', bput_int s v = Some s' /\ adv s s' 70.
Proof.
  intros R Hv. destruct (Z.eq_dec v (- 2 ^ 63)) as [->|Hne].
  - unfold bput_int. change (- 2 ^ 63 <? 0) with true. cbn zeta.
    destruct (bput_fits s 1 1 (room_le _ _ 1 R ltac:(lia)) ltac:(lia)) as (s1 & E1 & A1). rewrite E1.
    change (to_s 64 (- - 2 ^ 63)) with (- 2 ^ 63). change (- 2 ^ 63 <? 1) with true.
    assert (R1 : room s1 1) by (apply (room_adv s s1 1); [apply (room_le s 70); [assumption|lia]|assumption]).
    destruct (bput_fits s1 0 1 R1 ltac:(lia)) as (s2 & E2 & A2). exists s2.
    split; [exact E2|]. destruct A1 as [X1 X2 X3], A2 as [Y1 Y2 Y3]. split; [assumption|congruence|lia].
  - destruct R as [H1 H2]. assert (L := bits_int_le v).
    destruct (bput_int_ok s v H1 ltac:(lia) ltac:(lia)) as (s' & E & W). exists s'. split; [assumption|]. eapply adv_wr; eassumption.
Qed.

(** number of integer elements of a record *)
Definition elems (fs : list field) : nat := list_sum (map (fun f => if intlike f then fcount f else 0%nat) fs).

Lemma zput_elem_fits n s mem f rec i : field_ok n f -> (i < fcount f)%nat -> length rec = n -> length mem = n ->
  room s (if intlike f then 70 else 0) ->
  exists s', zput_elem s mem f rec i = Some s' /\ adv s s' (if intlike f then 70 else 0).
Proof.
  intros (F1 & F2 & F3) Hi Hr Hm R. assert (Hb := elem_bound f i Hi). unfold zput_elem, intlike in *.
  destruct (style_cases f F1 F2) as [E|[[E E2]|(E & E2 & E3 & E4)]].
  - rewrite E in *. cbn [orb] in *. rewrite !(fget_int_eval f) by (auto; lia).
    apply bput_int_fits; [assumption|]. apply (to_s_range 64). lia.
  - rewrite E, E2 in *. cbn [orb] in *.
    destruct (fget_uint_eval f rec i E) as (v & Ev & Vv); [lia|].
    destruct (fget_uint_eval f mem i E) as (a & Ea & Va); [lia|].
    rewrite Ev, Ea. apply bput_int_fits; [assumption|]. apply (to_s_range 64). lia.
  - rewrite E, E2, E3, E4 in *. exists s. split; [reflexivity|]. apply adv_refl. apply R.
Qed.

Lemma zput_one_fits n mem f rec : field_ok n f -> length rec = n -> length mem = n ->
  forall is s, (forall i, In i is -> (i < fcount f)%nat) ->
  room s (if intlike f then 70 * length is else 0) ->
  exists s', zput_one s mem f rec is = Some s' /\ adv s s' (if intlike f then 70 * length is else 0).
Proof.
  intros Hf Hr Hm. induction is as [|i is IH]; intros s Hi R; cbn [zput_one].
  - exists s. split; [reflexivity|]. apply adv_refl. apply R.
  - destruct (zput_elem_fits n s mem f rec i) as (s1 & E1 & A1); auto.
    { apply Hi; left; reflexivity. }
    { eapply room_le; [exact R|]. destruct (intlike f); cbn [length]; lia. }
    rewrite E1.
    destruct (IH s1) as (s2 & E2 & A2).
    { intros j Hj. apply Hi. right. assumption. }
    { eapply room_adv; [|exact A1]. eapply room_le; [exact R|]. destruct (intlike f); cbn [length]; lia. }
    exists s2. split; [assumption|]. destruct (adv_trans _ _ _ _ _ A1 A2) as [X1 X2 X3].
    split; auto. destruct (intlike f); cbn [length]; lia.
Qed.

Lemma zput_rec_fits n mem rec : length rec = n -> length mem = n -> forall fs s, Forall (field_ok n) fs ->
  room s (70 * elems fs) -> exists s', zput_rec s mem fs rec = Some s' /\ adv s s' (70 * elems fs).
Proof.
  intros Hr Hm. induction fs as [|f fs IH]; intros s Hf R; cbn [zput_rec].
  - exists s. split; [reflexivity|]. apply adv_refl. apply R.
  - apply Forall_cons_iff in Hf. destruct Hf as [Hf1 Hf2].
    change (elems (f :: fs)) with ((if intlike f then fcount f else 0) + elems fs)%nat in *.
    destruct (zput_one_fits n mem f rec Hf1 Hr Hm (seq 0 (fcount f)) s) as (s1 & E1 & A1).
    { intros i Hi. apply in_seq in Hi. lia. }
    { rewrite seq_length. eapply room_le; [exact R|]. destruct (intlike f); lia. }
    rewrite seq_length in A1. rewrite E1.
    destruct (IH s1 Hf2) as (s2 & E2 & A2).
    { eapply room_adv; [|exact A1]. eapply room_le; [exact R|]. destruct (intlike f); lia. }
    exists s2. split; [assumption|]. destruct (adv_trans _ _ _ _ _ A1 A2) as [X1 X2 X3].
    split; auto. destruct (intlike f); lia.
Qed.

Lemma zput_recs_fits n fs : Forall (field_ok n) fs -> forall recs mem s, Forall (fun r => length r = n) recs -> length mem = n ->
  room s (70 * elems fs * length recs) ->
  exists s' m, zput_recs s mem fs recs = Some (s', m) /\ adv s s' (70 * elems fs * length recs).
Proof.
  intros Hf. induction recs as [|r recs IH]; intros mem s Hr Hm R; cbn [zput_recs].
  - exists s, mem. split; [reflexivity|]. apply adv_refl. apply R.
  - apply Forall_cons_iff in Hr. destruct Hr as [Hr1 Hr2]. cbn [length] in *.
    destruct (zput_rec_fits n mem r Hr1 Hm fs s Hf) as (s1 & E1 & A1).
    { eapply room_le; [exact R|]. nia. }
    rewrite E1. destruct (IH r s1 Hr2 Hr1) as (s2 & m & E2 & A2).
    { eapply room_adv; [|exact A1]. eapply room_le; [exact R|]. nia. }
    exists s2, m. split; [assumption|]. destruct (adv_trans _ _ _ _ _ A1 A2) as [X1 X2 X3].
    split; auto. nia.
Qed.

Lemma zcompress_fits_lemma t buf recs : Forall (field_ok (tsize t)) (tfields t) -> Forall is_byte buf ->
  Forall (fun r => length r = tsize t) recs -> Z.of_nat (length recs) < 2 ^ 31 ->
  (70 * (elems (tfields t) * length recs) + 122 <= 8 * length buf)%nat ->
  exists bytes, zcompress t buf recs = Some bytes /\ (length bytes <= length buf)%nat.
Proof.
  intros Hf Hb Hr Hn Hl. unfold zcompress, zbag. cbn [sseen smem Z.b2z].
  set (K := (70 * elems (tfields t) * length recs)%nat).
  assert (R0 : room (mkbs buf 0) (1 + (1 + (35 + (35 + (35 + (K + 15))))))) by (split; [exact Hb|cbn [bdat bpos]; lia]).
  destruct (bput_fits (mkbs buf 0) 1 1 (room_le _ _ 1 R0 ltac:(lia)) ltac:(lia)) as (s1 & E1 & A1). rewrite E1.
  assert (R1 := room_adv _ _ _ _ R0 A1).
  destruct (bput_fits s1 0 1 (room_le _ _ 1 R1 ltac:(lia)) ltac:(lia)) as (s2 & E2 & A2). rewrite E2.
  assert (R2 := room_adv _ _ _ _ R1 A2).
  destruct (bput_uint_fits s2 0 (room_le _ _ 35 R2 ltac:(lia)) ltac:(lia)) as (s3 & E3 & A3). rewrite E3.
  assert (R3 := room_adv _ _ _ _ R2 A3).
  destruct (bput_uint_fits s3 0 (room_le _ _ 35 R3 ltac:(lia)) ltac:(lia)) as (s4 & E4 & A4). rewrite E4.
  assert (R4 := room_adv _ _ _ _ R3 A4).
  destruct (bput_uint_fits s4 (Z.of_nat (length recs)) (room_le _ _ 35 R4 ltac:(lia)) ltac:(lia)) as (s5 & E5 & A5). rewrite E5.
  assert (R5 := room_adv _ _ _ _ R4 A5).
  destruct (zput_recs_fits (tsize t) (tfields t) Hf recs (repeat 0 (tsize t)) s5 Hr (repeat_length _ _)
     (room_le _ _ K R5 ltac:(lia))) as (s6 & m & E6 & A6). rewrite E6.
  assert (R6 := room_adv _ _ _ _ R5 A6).
  assert (HL : length (bdat s6) = length buf).
  { destruct A1 as [_ B1 _], A2 as [_ B2 _], A3 as [_ B3 _], A4 as [_ B4 _], A5 as [_ B5 _], A6 as [_ B6 _]. cbn [bdat] in *. congruence. }
  unfold zset_bags. cbn [Z.leb Z.ltb Z.compare Pos.compare Pos.compare_cont andb].
  assert (R7 : room (mkbs (bdat s6) (align8 (bpos s6))) 8).
  { destruct R6 as [X Y]. split; [assumption|]. cbn [bdat bpos]. unfold align8.
    assert ((8 - bpos s6 mod 8) mod 8 < 8)%nat by (apply Nat.mod_upper_bound; lia). lia. }
  destruct (bput_fits _ 1 8 R7 ltac:(lia)) as (s8 & E8 & A8). rewrite E8.
  eexists. split; [reflexivity|]. rewrite firstn_length. cbn [bdat]. destruct A8 as [_ B8 _]. cbn [bdat] in B8. lia.
Qed.
