(** Proofs about the one-shot table compressor. *)
From Verif Require Import Base S_bits M_bits L_bits L_bitcodec L_bitprops L_ext M_dynamic M_incrzip S_incrzip.
From Coq Require Import ZifyBool ZifyNat.

(** *** slices and splices *)
Lemma slice_some l off n : (off + n <= length l)%nat -> slice l off n = Some (firstn n (skipn off l)).
Proof. intros H. unfold slice. destruct (Nat.leb_spec (off + n) (length l)); [reflexivity|lia]. Qed.

Lemma nth_firstn_skipn (l : list Z) off n k : (k < n)%nat -> nth k (firstn n (skipn off l)) 0 = nth (off + k) l 0.
Proof.
  revert off n k; induction l as [|x l IH]; intros off n k Hk.
  - rewrite skipn_nil, firstn_nil. rewrite !nth_overflow by (cbn; lia). reflexivity.
  - destruct off as [|off].
    + cbn [skipn]. destruct n as [|n]; [lia|]. cbn [firstn]. destruct k as [|k]; [reflexivity|].
      specialize (IH 0%nat n k ltac:(lia)). cbn [skipn] in IH. cbn [nth Nat.add]. exact IH.
    + cbn [skipn]. specialize (IH off n k Hk). cbn [Nat.add nth]. exact IH.
Qed.

Lemma slice_len (l : list Z) off n : (off + n <= length l)%nat -> length (firstn n (skipn off l)) = n.
Proof. intros H. rewrite firstn_length, skipn_length. lia. Qed.

Lemma slice_byte (l : list Z) off n : Forall is_byte l -> Forall is_byte (firstn n (skipn off l)).
Proof.
  intros H. apply Forall_forall. intros x Hx. rewrite Forall_forall in H. apply H.
  rewrite <- (firstn_skipn off l). apply in_or_app. right.
  rewrite <- (firstn_skipn n (skipn off l)). apply in_or_app. left. assumption.
Qed.

Lemma slice_ext (a b : list Z) off n : (off + n <= length a)%nat -> length a = length b ->
  (forall p, (off <= p < off + n)%nat -> nth p a 0 = nth p b 0) ->
  firstn n (skipn off a) = firstn n (skipn off b).
Proof.
  intros H HL HE. apply nth_ext with (d := 0) (d' := 0).
  - rewrite !slice_len by lia. reflexivity.
  - intros k Hk. rewrite slice_len in Hk by lia. rewrite !nth_firstn_skipn by lia. apply HE. lia.
Qed.

Lemma splice_some l off b : (off + length b <= length l)%nat ->
  exists l', splice l off b = Some l' /\ length l' = length l
    /\ forall p, nth p l' 0 = if (Nat.leb off p && Nat.ltb p (off + length b))%bool
                               then nth (p - off) b 0 else nth p l 0.
Proof.
  intros H. unfold splice. destruct (Nat.leb_spec (off + length b) (length l)); [|lia].
  eexists. split; [reflexivity|]. split.
  - rewrite !app_length, firstn_length, skipn_length. lia.
  - intros p. assert (Hf : length (firstn off l) = off) by (rewrite firstn_length; lia).
    destruct (Nat.leb_spec off p); cbn [andb].
    + rewrite app_nth2 by lia. rewrite Hf.
      destruct (Nat.ltb_spec p (off + length b)).
      * rewrite app_nth1 by lia. reflexivity.
      * rewrite app_nth2 by lia.
        replace (p - off - length b)%nat with (p - (off + length b))%nat by lia.
        destruct (lt_dec p (length l)) as [Hp|Hp].
        -- assert (E := nth_firstn_skipn l (off + length b) (length l - (off + length b)) (p - (off + length b)) ltac:(lia)).
           rewrite firstn_all2 in E by (rewrite skipn_length; lia). rewrite E. f_equal. lia.
        -- rewrite !nth_overflow; [reflexivity|lia|rewrite skipn_length; lia].
    + rewrite app_nth1 by lia. rewrite <- (firstn_skipn off l) at 2. rewrite app_nth1 by lia. reflexivity.
Qed.

(** *** integer elements *)
Definition intlike (f : field) : bool := (fstyle f =? ty_int) || is_uintlike (fstyle f).

(** columns of a table, for the specification *)
Definition columns (fs : list field) : list column :=
  map (fun f => mkcol (foff f) (flen f) (fcount f))
      (filter (fun f => intlike f && int_len (flen f)) fs).

(** no FLOAT or CHAR fields, and integer fields inside the record *)
Definition field_ok (n : nat) (f : field) : Prop :=
  fstyle f <> ty_float /\ fstyle f <> ty_char
  /\ (foff f + fcount f * flen f <= n)%nat.

Lemma int_len_cases n : int_len n = true -> (n = 1 \/ n = 2 \/ n = 4 \/ n = 8)%nat.
Proof.
  intros H. do 9 (destruct n as [|n]; [try discriminate; lia|]). destruct n; discriminate.
Qed.

(** 64-bit value the compressor takes for an element *)
Definition eval (f : field) (rec : list Z) (i : nat) : Z :=
  if int_len (flen f) then
    let w := word rec (foff f + i * flen f) (flen f) in
    if fstyle f =? ty_int then to_s (8 * Z.of_nat (flen f)) w else to_s 64 w
  else 0.

Lemma to_s_range w z : 0 < w -> - 2 ^ (w - 1) <= to_s w z < 2 ^ (w - 1).
Proof.
  intros Hw. unfold to_s. assert (Hp : 0 < 2 ^ w) by (apply Z.pow_pos_nonneg; lia).
  assert (E : 2 ^ w = 2 * 2 ^ (w - 1)) by (rewrite <- Z.pow_succ_r by lia; f_equal; lia).
  assert (Hm := Z.mod_pos_bound z (2 ^ w) Hp).
  destruct (Z.ltb_spec (z mod 2 ^ w) (2 ^ (w - 1))); lia.
Qed.

Lemma elem_bound f i : (i < fcount f)%nat -> (foff f + i * flen f + flen f <= foff f + fcount f * flen f)%nat.
Proof. intros H. nia. Qed.

Lemma word_bound rec p n : Forall is_byte rec -> (p + n <= length rec)%nat -> 0 <= word rec p n < 256 ^ Z.of_nat n.
Proof.
  intros Hb Hl. unfold word. assert (H := le_val_bound (firstn n (skipn p rec)) (slice_byte rec p n Hb)).
  rewrite slice_len in H by assumption. exact H.
Qed.

Lemma pow256_pow2 n : 256 ^ Z.of_nat n = 2 ^ (8 * Z.of_nat n).
Proof. rewrite Z.pow_mul_r by lia. reflexivity. Qed.

Lemma eval_range f rec i : - 2 ^ 63 <= eval f rec i < 2 ^ 63.
Proof.
  unfold eval. destruct (int_len (flen f)) eqn:E; [|lia]. cbn zeta.
  destruct (fstyle f =? ty_int).
  - apply int_len_cases in E.
    set (w := word rec (foff f + i * flen f) (flen f)).
    destruct E as [E|[E|[E|E]]]; rewrite E.
    + assert (H := to_s_range (8 * Z.of_nat 1) w ltac:(lia)). change (8 * Z.of_nat 1) with 8 in *. change (8 - 1) with 7 in H. lia.
    + assert (H := to_s_range (8 * Z.of_nat 2) w ltac:(lia)). change (8 * Z.of_nat 2) with 16 in *. change (16 - 1) with 15 in H. lia.
    + assert (H := to_s_range (8 * Z.of_nat 4) w ltac:(lia)). change (8 * Z.of_nat 4) with 32 in *. change (32 - 1) with 31 in H. lia.
    + assert (H := to_s_range (8 * Z.of_nat 8) w ltac:(lia)). change (8 * Z.of_nat 8) with 64 in *. change (64 - 1) with 63 in H. lia.
  - apply (to_s_range 64). lia.
Qed.

(** storing back the value restores the bytes *)
Lemma eval_bytes f rec i v : int_len (flen f) = true -> Forall is_byte rec ->
  (foff f + i * flen f + flen f <= length rec)%nat -> v = eval f rec i ->
  le_bytes (flen f) v = firstn (flen f) (skipn (foff f + i * flen f) rec).
Proof.
  intros Hi Hb Hl ->. unfold eval. rewrite Hi. cbn zeta.
  set (p := (foff f + i * flen f)%nat) in *.
  assert (Hw := word_bound rec p (flen f) Hb Hl).
  assert (Hn : (1 <= flen f <= 8)%nat) by (apply int_len_cases in Hi; lia).
  assert (E : forall v, v mod 2 ^ (8 * Z.of_nat (flen f)) = word rec p (flen f) ->
              le_bytes (flen f) v = firstn (flen f) (skipn p rec)).
  { intros v Hv.
    assert (HL : length (firstn (flen f) (skipn p rec)) = flen f) by (apply slice_len; assumption).
    assert (E0 : forall n z, le_bytes n (z mod 256 ^ Z.of_nat n) = le_bytes n z).
    { clear. induction n as [|n IH]; intros z; [reflexivity|].
      cbn [le_bytes]. rewrite pow256_succ. assert (0 < 256 ^ Z.of_nat n) by (apply Z.pow_pos_nonneg; lia).
      rewrite Z.rem_mul_r by lia. f_equal.
      - rewrite (Z.mul_comm 256), Z.mod_add by lia. apply Z.mod_mod. lia.
      - rewrite (Z.mul_comm 256), Z.div_add by lia. rewrite (Z.div_small (z mod 256)) by (apply Z.mod_pos_bound; lia).
        rewrite Z.add_0_l. apply IH. }
    rewrite <- E0, pow256_pow2, Hv. unfold word.
    rewrite <- HL at 1. apply le_bytes_val. apply slice_byte. assumption. }
  apply E. rewrite pow256_pow2 in Hw.
  destruct (fstyle f =? ty_int).
  - change (to_u (8 * Z.of_nat (flen f)) (to_s (8 * Z.of_nat (flen f)) (word rec p (flen f))) = word rec p (flen f)).
    rewrite to_u_to_s by lia. apply to_u_small. assumption.
  - assert (Hd : (2 ^ (8 * Z.of_nat (flen f)) | 2 ^ 64)).
    { exists (2 ^ (64 - 8 * Z.of_nat (flen f))). rewrite <- Z.pow_add_r by lia. f_equal. lia. }
    rewrite (Znumtheory.Zmod_div_mod (2 ^ (8 * Z.of_nat (flen f))) (2 ^ 64)); [|apply Z.pow_pos_nonneg; lia|lia|assumption].
    change (to_s 64 (word rec p (flen f)) mod 2 ^ 64) with (to_u 64 (to_s 64 (word rec p (flen f)))).
    rewrite to_u_to_s by lia. unfold to_u.
    rewrite <- (Znumtheory.Zmod_div_mod (2 ^ (8 * Z.of_nat (flen f))) (2 ^ 64)); [|apply Z.pow_pos_nonneg; lia|lia|assumption].
    apply Z.mod_small. assumption.
Qed.

Definition bits_elem (mem rec : list Z) (f : field) (i : nat) : list bool :=
  if intlike f then bits_int (to_s 64 (eval f rec i - eval f mem i)) else [].

Definition bits_one mem rec f (is : list nat) := concat (map (bits_elem mem rec f) is).
Definition bits_rec (mem rec : list Z) (fs : list field) :=
  concat (map (fun f => bits_one mem rec f (seq 0 (fcount f))) fs).
Fixpoint bits_recs (mem : list Z) (fs : list field) (recs : list (list Z)) : list bool :=
  match recs with [] => [] | r :: recs' => bits_rec mem r fs ++ bits_recs r fs recs' end.

(** record shape *)
Definition rec_ok (n : nat) (r : list Z) : Prop := length r = n /\ Forall is_byte r.

Definition diff_ok f rec mem i := intlike f = true -> (eval f rec i - eval f mem i) mod 2 ^ 64 <> 2 ^ 63.

Lemma style_cases f : fstyle f <> ty_float -> fstyle f <> ty_char ->
  (fstyle f =? ty_int) = true \/ ((fstyle f =? ty_int) = false /\ is_uintlike (fstyle f) = true)
  \/ ((fstyle f =? ty_int) = false /\ is_uintlike (fstyle f) = false /\ (fstyle f =? ty_float) = false
      /\ (fstyle f =? ty_char) = false).
Proof.
  intros H1 H2. destruct (fstyle f =? ty_int); [auto|]. destruct (is_uintlike (fstyle f)); [auto|].
  right; right. repeat split; apply Z.eqb_neq; assumption.
Qed.

Lemma fget_int_eval f rec i : (fstyle f =? ty_int) = true ->
  (foff f + i * flen f + flen f <= length rec)%nat -> fget_int f rec i = Some (eval f rec i).
Proof.
  intros Hs Hl. unfold fget_int, eval. rewrite Hs. destruct (int_len (flen f)); [|reflexivity].
  rewrite slice_some by assumption. reflexivity.
Qed.

Lemma fget_uint_eval f rec i : (fstyle f =? ty_int) = false ->
  (foff f + i * flen f + flen f <= length rec)%nat ->
  exists v, fget_uint f rec i = Some v /\ to_s 64 v = eval f rec i.
Proof.
  intros Hs Hl. unfold fget_uint, eval. rewrite Hs. destruct (int_len (flen f)).
  - rewrite slice_some by assumption. eexists. split; reflexivity.
  - exists 0. split; reflexivity.
Qed.

Lemma diff_range f rec mem i : intlike f = true -> diff_ok f rec mem i -> - 2 ^ 63 < to_s 64 (eval f rec i - eval f mem i) < 2 ^ 63.
Proof.
  unfold diff_ok, to_s. intros Hs H. specialize (H Hs). cbn zeta. change (64 - 1) with 63.
  assert (Hm := Z.mod_pos_bound (eval f rec i - eval f mem i) (2 ^ 64) ltac:(lia)).
  destruct (Z.ltb_spec ((eval f rec i - eval f mem i) mod 2 ^ 64) (2 ^ 63)); lia.
Qed.

Lemma zput_elem_wrc n s s' mem f rec i : field_ok n f -> (i < fcount f)%nat ->
  length rec = n -> length mem = n -> diff_ok f rec mem i ->
  Forall is_byte (bdat s) -> (bpos s <= 8 * length (bdat s))%nat ->
  zput_elem s mem f rec i = Some s' -> wrc s s' (bits_elem mem rec f i).
Proof.
  intros (F1 & F2 & F3) Hi Hr Hm Hdf Hd Hp H. assert (Hb := elem_bound f i Hi).
  unfold zput_elem in H. unfold bits_elem, intlike.
  destruct (style_cases f F1 F2) as [E|[[E E2]|(E & E2 & E3 & E4)]].
  - rewrite E in *. cbn [orb]. rewrite !(fget_int_eval f) in H by (auto; lia).
    apply (bput_int_wrc s s' Hd Hp); [apply diff_range; [unfold intlike; rewrite ?E, ?E2; reflexivity|assumption]|exact H].
  - rewrite E, E2 in *. cbn [orb].
    destruct (fget_uint_eval f rec i E) as (v & Ev & Vv); [lia|].
    destruct (fget_uint_eval f mem i E) as (a & Ea & Va); [lia|].
    rewrite Ev, Ea, Vv, Va in H.
    apply (bput_int_wrc s s' Hd Hp); [apply diff_range; [unfold intlike; rewrite ?E, ?E2; reflexivity|assumption]|exact H].
  - rewrite E, E2, E3, E4 in *. injection H as <-. apply wrc_nil; assumption.
Qed.

Lemma zput_one_wrc n mem f rec is : forall s s', field_ok n f -> (forall i, In i is -> (i < fcount f)%nat) ->
  length rec = n -> length mem = n -> (forall i, In i is -> diff_ok f rec mem i) ->
  Forall is_byte (bdat s) -> (bpos s <= 8 * length (bdat s))%nat ->
  zput_one s mem f rec is = Some s' -> wrc s s' (bits_one mem rec f is).
Proof.
  induction is as [|i is IH]; intros s s' Hf Hi Hr Hm Hdf Hd Hp H.
  - cbn in *. injection H as <-. apply wrc_nil; assumption.
  - cbn [zput_one] in H. destruct (zput_elem s mem f rec i) as [s1|] eqn:E; [|discriminate].
    assert (W := zput_elem_wrc n s s1 mem f rec i Hf (Hi i (or_introl eq_refl)) Hr Hm (Hdf i (or_introl eq_refl)) Hd Hp E).
    change (bits_one mem rec f (i :: is)) with (bits_elem mem rec f i ++ bits_one mem rec f is).
    eapply wrc_app; [exact W|]. apply IH; auto.
    + intros j Hj; apply Hi; right; assumption.
    + intros j Hj; apply Hdf; right; assumption.
    + eapply wrc_byte; eassumption.
    + eapply wrc_cap; eassumption.
Qed.

Definition diffs_ok (fs : list field) (mem rec : list Z) : Prop :=
  forall f i, In f fs -> (i < fcount f)%nat -> diff_ok f rec mem i.

Lemma zput_rec_wrc n mem rec fs : forall s s', Forall (field_ok n) fs ->
  length rec = n -> length mem = n -> diffs_ok fs mem rec ->
  Forall is_byte (bdat s) -> (bpos s <= 8 * length (bdat s))%nat ->
  zput_rec s mem fs rec = Some s' -> wrc s s' (bits_rec mem rec fs).
Proof.
  induction fs as [|f fs IH]; intros s s' Hf Hr Hm Hdf Hd Hp H.
  - cbn in *. injection H as <-. apply wrc_nil; assumption.
  - cbn [zput_rec] in H. destruct (zput_one s mem f rec _) as [s1|] eqn:E; [|discriminate].
    inversion Hf as [|? ? Hf1 Hf2]; subst.
    assert (W : wrc s s1 (bits_one mem rec f (seq 0 (fcount f)))).
    { eapply zput_one_wrc; try eassumption; try reflexivity; try lia.
      - intros i Hi. apply in_seq in Hi. lia.
      - intros i Hi. apply in_seq in Hi. apply Hdf; [left; reflexivity|lia]. }
    change (bits_rec mem rec (f :: fs)) with (bits_one mem rec f (seq 0 (fcount f)) ++ bits_rec mem rec fs).
    eapply wrc_app; [exact W|]. apply IH; auto.
    + intros g i Hg Hi. apply Hdf; [right|]; assumption.
    + eapply wrc_byte; eassumption.
    + eapply wrc_cap; eassumption.
Qed.

Fixpoint all_diffs_ok (fs : list field) (mem : list Z) (recs : list (list Z)) : Prop :=
  match recs with [] => True | r :: recs' => diffs_ok fs mem r /\ all_diffs_ok fs r recs' end.

Lemma zput_recs_wrc n fs recs : forall mem s s' m', Forall (field_ok n) fs ->
  Forall (rec_ok n) recs -> length mem = n -> all_diffs_ok fs mem recs ->
  Forall is_byte (bdat s) -> (bpos s <= 8 * length (bdat s))%nat ->
  zput_recs s mem fs recs = Some (s', m') ->
  wrc s s' (bits_recs mem fs recs) /\ m' = last recs mem.
Proof.
  induction recs as [|r recs IH]; intros mem s s' m' Hf Hr Hm Hdf Hd Hp H.
  - cbn in *. injection H as <- <-. split; [apply wrc_nil; assumption|reflexivity].
  - cbn [zput_recs] in H. destruct (zput_rec s mem fs r) as [s1|] eqn:E; [|discriminate].
    inversion Hr as [|? ? Hr1 Hr2]; subst. destruct Hdf as [D1 D2].
    assert (W : wrc s s1 (bits_rec mem r fs)).
    { apply (zput_rec_wrc (length mem)); auto. apply Hr1. }
    destruct (IH r s1 s' m') as [W2 E2]; auto.
    + apply Hr1.
    + eapply wrc_byte; eassumption.
    + eapply wrc_cap; eassumption.
    + split; [cbn [bits_recs]; eapply wrc_app; eassumption|].
      rewrite E2. destruct recs as [|r' recs]; [reflexivity|].
      cbn [last]. clear. revert r'. induction recs as [|x recs IH]; intros r'; [reflexivity|]. cbn [last] in *. apply IH.
Qed.

(** *** decoding *)
Definition incol (f : field) (p : nat) : Prop :=
  intlike f = true /\ int_len (flen f) = true /\ (foff f <= p < foff f + fcount f * flen f)%nat.
Definition cov (fs : list field) (p : nat) : Prop := exists f, In f fs /\ incol f p.

Lemma cov_covered fs p : covered (columns fs) p <-> cov fs p.
Proof.
  unfold covered, cov, columns. split.
  - intros (c & Hc & Hp). apply in_map_iff in Hc. destruct Hc as (f & <- & Hf).
    apply filter_In in Hf. destruct Hf as [Hf Hb]. apply andb_prop in Hb.
    exists f. unfold incol, in_column in *. cbn in Hp. tauto.
  - intros (f & Hf & H1 & H2 & H3). exists (mkcol (foff f) (flen f) (fcount f)). split.
    + apply in_map_iff. exists f. split; [reflexivity|]. apply filter_In. rewrite H1, H2. auto.
    + exact H3.
Qed.

(** the memory the decoder uses, or zeros for NULL, has the encoder's values in field f *)
Definition mem_agrees (n : nat) (mem : option (list Z)) (memE : list Z) (f : field) : Prop :=
  match mem with
  | Some m => length m = n /\ (forall p, incol f p -> nth p m 0 = nth p memE 0)
  | None => forall i, (i < fcount f)%nat -> eval f memE i = 0
  end.

Lemma eval_ext f a b i : length a = length b -> (i < fcount f)%nat ->
  (foff f + fcount f * flen f <= length a)%nat -> intlike f = true ->
  (forall p, incol f p -> nth p a 0 = nth p b 0) -> eval f a i = eval f b i.
Proof.
  intros HL Hi Hl Hs HE. assert (Hb := elem_bound f i Hi). unfold eval.
  destruct (int_len (flen f)) eqn:E; [|reflexivity]. unfold word.
  rewrite (slice_ext a b) by (try lia; intros p Hp; apply HE; repeat split; auto; nia). reflexivity.
Qed.

Lemma to_s_incr a b : - 2 ^ 63 <= a < 2 ^ 63 -> to_s 64 (to_s 64 (a - b) + b) = a.
Proof.
  intros Ha. rewrite <- (to_s_small 64 a) at 2 by (change (64 - 1) with 63; lia).
  unfold to_s. cbn zeta.
  assert (H := Z.mod_pos_bound (a - b) (2 ^ 64) ltac:(lia)).
  assert (E : a - b = 2 ^ 64 * ((a - b) / 2 ^ 64) + (a - b) mod 2 ^ 64) by (apply Z.div_mod; lia).
  set (q := (a - b) / 2 ^ 64) in *. set (r := (a - b) mod 2 ^ 64) in *.
  change (64 - 1) with 63.
  destruct (Z.ltb_spec r (2 ^ 63)).
  - replace (r + b) with (a + (- q) * 2 ^ 64) by lia. rewrite Z_mod_plus_full. reflexivity.
  - replace (r - 2 ^ 64 + b) with (a + (- q - 1) * 2 ^ 64) by lia. rewrite Z_mod_plus_full. reflexivity.
Qed.

Lemma fset_elem n f out rec i v : field_ok n f -> (i < fcount f)%nat -> length out = n -> rec_ok n rec ->
  v = eval f rec i -> exists out', fset f out v i = Some out' /\ length out' = n
    /\ (forall p, nth p out 0 = nth p rec 0 -> nth p out' 0 = nth p rec 0)
    /\ (forall p, int_len (flen f) = true -> (foff f + i * flen f <= p < foff f + i * flen f + flen f)%nat ->
         nth p out' 0 = nth p rec 0).
Proof.
  intros (F1 & F2 & F3) Hi Ho [Hr Hb] Hv. assert (He := elem_bound f i Hi).
  unfold fset. destruct (int_len (flen f)) eqn:E.
  - destruct (splice_some out (foff f + i * flen f) (le_bytes (flen f) v)) as (o & E1 & E2 & E3).
    { rewrite le_bytes_length. lia. }
    exists o. split; [assumption|]. split; [lia|].
    rewrite le_bytes_length in E3.
    assert (HB : forall p, (foff f + i * flen f <= p < foff f + i * flen f + flen f)%nat ->
              nth (p - (foff f + i * flen f)) (le_bytes (flen f) v) 0 = nth p rec 0).
    { intros p Hp. rewrite (eval_bytes f rec i v E Hb) by (try lia; assumption).
      rewrite nth_firstn_skipn by lia. f_equal. lia. }
    split.
    + intros p Hp. rewrite E3. destruct (Nat.leb_spec (foff f + i * flen f) p); [|assumption].
      destruct (Nat.ltb_spec p (foff f + i * flen f + flen f)); [|assumption]. cbn [andb]. apply HB. lia.
    + intros p _ Hp. rewrite E3. destruct (Nat.leb_spec (foff f + i * flen f) p); [|lia].
      destruct (Nat.ltb_spec p (foff f + i * flen f + flen f)); [|lia]. cbn [andb]. apply HB. lia.
  - exists out. split; [reflexivity|]. split; [assumption|]. split; [auto|]. intros p Hp. congruence.
Qed.

Lemma zget_elem_ok n s s' mem memE f out rec i : field_ok n f -> (i < fcount f)%nat ->
  length out = n -> rec_ok n rec -> length memE = n -> mem_agrees n mem memE f -> diff_ok f rec memE i ->
  rd s s' (bits_elem memE rec f i) ->
  exists out', zget_elem s mem f out i = Some (out', s') /\ length out' = n
    /\ (forall p, nth p out 0 = nth p rec 0 -> nth p out' 0 = nth p rec 0)
    /\ (forall p, intlike f = true -> int_len (flen f) = true ->
         (foff f + i * flen f <= p < foff f + i * flen f + flen f)%nat -> nth p out' 0 = nth p rec 0).
Proof.
  intros Hf Hi Ho Hr Hm Ha Hdf H. assert (Hb := elem_bound f i Hi).
  assert (Hf' := Hf). destruct Hf' as (F1 & F2 & F3).
  unfold zget_elem, bits_elem, intlike in *.
  assert (HV : bget_incr_int s (eval f memE i) = Some (eval f rec i, s') ->
               exists out', match bget_incr_int s (eval f memE i) with
                 | None => None
                 | Some (v, s'') => match fset f out v i with Some o => Some (o, s'') | None => None end
                 end = Some (out', s') /\ length out' = n
                 /\ (forall p, nth p out 0 = nth p rec 0 -> nth p out' 0 = nth p rec 0)
                 /\ (forall p, int_len (flen f) = true -> (foff f + i * flen f <= p < foff f + i * flen f + flen f)%nat ->
                      nth p out' 0 = nth p rec 0)).
  { intros ->. destruct (fset_elem n f out rec i (eval f rec i) Hf Hi Ho Hr eq_refl) as (o & E1 & E2 & E3 & E4).
    rewrite E1. exists o. auto. }
  assert (HG : intlike f = true -> rd s s' (bits_int (to_s 64 (eval f rec i - eval f memE i))) ->
               bget_incr_int s (eval f memE i) = Some (eval f rec i, s')).
  { intros Hs R. unfold bget_incr_int. rewrite (bget_int_ok _ _ _ (diff_range _ _ _ _ Hs Hdf) R).
    rewrite to_s_incr by apply eval_range. reflexivity. }
  destruct (style_cases f F1 F2) as [E|[[E E2]|(E & E2 & E3 & E4)]].
  - rewrite E in *. cbn [orb] in *.
    assert (HE : match mem with Some m => fget_int f m i | None => Some 0 end = Some (eval f memE i)).
    { destruct mem as [m|]; cbn [mem_agrees] in Ha.
      - destruct Ha as [A1 A2]. rewrite fget_int_eval by (auto; lia). f_equal.
        apply eval_ext; auto; try lia. unfold intlike. rewrite E. reflexivity.
      - rewrite Ha by assumption. reflexivity. }
    rewrite HE. destruct (HV (HG ltac:(unfold intlike; rewrite ?E, ?E2; reflexivity) H)) as (o & O1 & O2 & O3 & O4). exists o. repeat split; auto.
  - rewrite E, E2 in *. cbn [orb] in *.
    assert (HE : exists a, match mem with Some m => fget_uint f m i | None => Some 0 end = Some a
                 /\ to_s 64 a = eval f memE i).
    { destruct mem as [m|]; cbn [mem_agrees] in Ha.
      - destruct Ha as [A1 A2]. destruct (fget_uint_eval f m i E) as (v & V1 & V2); [lia|].
        exists v. split; [assumption|]. rewrite V2.
        apply eval_ext; auto; try lia. unfold intlike. rewrite E, E2. reflexivity.
      - exists 0. split; [reflexivity|]. rewrite Ha by assumption. reflexivity. }
    destruct HE as (a & A1 & A2). rewrite A1, A2.
    destruct (HV (HG ltac:(unfold intlike; rewrite ?E, ?E2; reflexivity) H)) as (o & O1 & O2 & O3 & O4). exists o. repeat split; auto.
  - rewrite E, E2, E3, E4 in *. cbn [orb] in *. exists out.
    destruct H as [_ _ _ R4 R5]. cbn in R5. destruct s as [d p], s' as [d' p']; cbn in *. subst.
    rewrite Nat.add_0_r. repeat split; auto. discriminate.
Qed.

Lemma zget_one_ok n mem memE f rec is : forall s s' out, field_ok n f -> (forall i, In i is -> (i < fcount f)%nat) ->
  length out = n -> rec_ok n rec -> length memE = n -> mem_agrees n mem memE f ->
  (forall i, In i is -> diff_ok f rec memE i) ->
  rd s s' (bits_one memE rec f is) ->
  exists out', zget_one s mem f out is = Some (out', s') /\ length out' = n
    /\ (forall p, nth p out 0 = nth p rec 0 -> nth p out' 0 = nth p rec 0)
    /\ (forall p i, In i is -> intlike f = true -> int_len (flen f) = true ->
         (foff f + i * flen f <= p < foff f + i * flen f + flen f)%nat -> nth p out' 0 = nth p rec 0).
Proof.
  induction is as [|i is IH]; intros s s' out Hf Hi Ho Hr Hm Ha Hdf H.
  - cbn in *. destruct H as [_ _ _ R4 R5]. destruct s as [d p], s' as [d' p']; cbn in *. subst.
    rewrite Nat.add_0_r. exists out. repeat split; auto. intros p' i [].
  - change (bits_one memE rec f (i :: is)) with (bits_elem memE rec f i ++ bits_one memE rec f is) in H.
    apply rd_app in H. destruct H as (s1 & R1 & R2).
    destruct (zget_elem_ok n s s1 mem memE f out rec i) as (o1 & E1 & E2 & E3 & E4); auto.
    { apply Hi; left; reflexivity. } { apply Hdf; left; reflexivity. }
    destruct (IH s1 s' o1) as (o2 & G1 & G2 & G3 & G4); auto.
    { intros j Hj; apply Hi; right; assumption. } { intros j Hj; apply Hdf; right; assumption. }
    exists o2. cbn [zget_one]. rewrite E1. split; [assumption|]. split; [assumption|]. split; [auto|].
    intros p j [<-|Hj] Hs Hl Hp; [apply G3; apply E4; assumption|].
    eapply G4; eassumption.
Qed.

Lemma incol_elem f p : incol f p -> exists i, (i < fcount f)%nat /\ (foff f + i * flen f <= p < foff f + i * flen f + flen f)%nat.
Proof.
  intros (H1 & H2 & H3). assert (Hn : (1 <= flen f)%nat) by (apply int_len_cases in H2; lia).
  exists ((p - foff f) / flen f)%nat.
  assert (Hdm := Nat.div_mod (p - foff f) (flen f) ltac:(lia)).
  assert (Hm := Nat.mod_upper_bound (p - foff f) (flen f) ltac:(lia)).
  set (q := ((p - foff f) / flen f)%nat) in *. set (r := ((p - foff f) mod flen f)%nat) in *.
  split; nia.
Qed.

Lemma zget_rec_ok n mem memE rec fs : forall s s' out, Forall (field_ok n) fs ->
  length out = n -> rec_ok n rec -> length memE = n -> (forall f, In f fs -> mem_agrees n mem memE f) ->
  diffs_ok fs memE rec -> rd s s' (bits_rec memE rec fs) ->
  exists out', zget_rec s mem fs out = Some (out', s') /\ length out' = n
    /\ (forall p, nth p out 0 = nth p rec 0 -> nth p out' 0 = nth p rec 0)
    /\ (forall p, cov fs p -> nth p out' 0 = nth p rec 0).
Proof.
  induction fs as [|f fs IH]; intros s s' out Hf Ho Hr Hm Ha Hdf H.
  - cbn in *. destruct H as [_ _ _ R4 R5]. destruct s as [d p], s' as [d' p']; cbn in *. subst.
    rewrite Nat.add_0_r. exists out. repeat split; auto. intros p' (f & [] & _).
  - change (bits_rec memE rec (f :: fs)) with (bits_one memE rec f (seq 0 (fcount f)) ++ bits_rec memE rec fs) in H.
    apply rd_app in H. destruct H as (s1 & R1 & R2). apply Forall_cons_iff in Hf. destruct Hf as [Hf1 Hf2].
    destruct (zget_one_ok n mem memE f rec (seq 0 (fcount f)) s s1 out) as (o1 & E1 & E2 & E3 & E4); auto.
    { intros i Hi. apply in_seq in Hi. lia. }
    { apply Ha; left; reflexivity. }
    { intros i Hi. apply in_seq in Hi. apply Hdf; [left; reflexivity|lia]. }
    destruct (IH s1 s' o1) as (o2 & G1 & G2 & G3 & G4); auto.
    { intros g Hg; apply Ha; right; assumption. }
    { intros g i Hg Hi. apply Hdf; [right|]; assumption. }
    exists o2. cbn [zget_rec]. rewrite E1. split; [assumption|]. split; [assumption|]. split; [auto|].
    intros p (g & [<-|Hg] & Hp).
    + apply G3. destruct (incol_elem f p Hp) as (i & I1 & I2). destruct Hp as (P1 & P2 & P3).
      apply (E4 p i); auto. apply in_seq. lia.
    + apply G4. exists g. auto.
Qed.

Lemma last_cons {A} (x y : A) l d : last (x :: y :: l) d = last (y :: l) d.
Proof. reflexivity. Qed.

Definition same_cov (fs : list field) (a b : list Z) : Prop :=
  length a = length b /\ forall p, cov fs p -> nth p a 0 = nth p b 0.

Lemma zget_recs_ok n fs recs : forall mem memE outs s s', Forall (field_ok n) fs ->
  length outs = length recs -> Forall (fun o => length o = n) outs ->
  Forall (rec_ok n) recs -> length memE = n -> (forall f, In f fs -> mem_agrees n mem memE f) ->
  all_diffs_ok fs memE recs -> rd s s' (bits_recs memE fs recs) ->
  exists rs, zget_recs s mem fs outs = Some rs /\ Forall2 (same_cov fs) recs rs.
Proof.
  induction recs as [|r recs IH]; intros mem memE outs s s' Hf HL Ho Hr Hm Ha Hdf H.
  - destruct outs; [|discriminate]. exists []. split; [reflexivity|constructor].
  - destruct outs as [|o outs]; [discriminate|]. cbn [length bits_recs] in *.
    apply Forall_cons_iff in Ho. destruct Ho as [Ho1 Ho2]. apply Forall_cons_iff in Hr. destruct Hr as [Hr1 Hr2]. destruct Hdf as [D1 D2].
    apply rd_app in H. destruct H as (s1 & R1 & R2).
    destruct (zget_rec_ok n mem memE r fs s s1 o) as (o' & E1 & E2 & E3 & E4); auto.
    cbn [zget_recs]. rewrite E1.
    assert (HS : same_cov fs r o').
    { split; [destruct Hr1; congruence|]. intros p Hp. symmetry. apply E4. assumption. }
    destruct (IH (Some o') r outs s1 s') as (rs & G1 & G2); auto.
    { apply Hr1. }
    { intros f Hin. cbn [mem_agrees]. split; [assumption|]. intros p Hp. apply E4. exists f. auto. }
    exists (o' :: rs). rewrite G1. split; [reflexivity|]. constructor; assumption.
Qed.

(** *** packets *)
Record cont (s : bstream) (bs : list bool) : Prop := mkcont {
  ct_byte : Forall is_byte (bdat s);
  ct_pos : bpos s = length bs;
  ct_holds : holds (bdat s) 0 bs;
  ct_cap : (bpos s <= 8 * length (bdat s))%nat }.

Lemma cont_wrc s s' b1 b2 : cont s b1 -> wrc s s' b2 -> cont s' (b1 ++ b2).
Proof.
  intros [A1 A2 A3 A4] [W C]. split.
  - apply W.
  - rewrite (wr_pos _ _ _ W), app_length. lia.
  - apply holds_app. split.
    + eapply wr_holds_before; [exact W|exact A3|lia].
    + rewrite Nat.add_0_l, <- A2. apply (wr_new _ _ _ W).
  - assumption.
Qed.

Lemma cont_start d : Forall is_byte d -> cont (mkbs d 0) [].
Proof. intros H. split; cbn; auto; [intros j Hj; cbn in Hj; lia|lia]. Qed.

Definition bits_hdr (seen : bool) (kidx sidx : Z) (n : nat) : list bool :=
  tobits 1 (if seen then 1 else 0) ++ bits_uint kidx ++ bits_uint sidx ++ bits_uint (Z.of_nat n).

Definition bits_bag (seen : bool) (kidx sidx : Z) (mem : list Z) (fs : list field) (recs : list (list Z)) :=
  bits_hdr seen kidx sidx (length recs) ++ bits_recs mem fs recs.

Definition bits_init (init : option bool) : list bool :=
  match init with Some b => tobits 1 (Z.b2z b) | None => [] end.

Lemma zbag_wrc s s' init sl sl' kidx sidx t recs :
  Forall (field_ok (tsize t)) (tfields t) -> Forall (rec_ok (tsize t)) recs ->
  length (smem sl) = tsize t -> all_diffs_ok (tfields t) (smem sl) recs ->
  0 <= kidx < 2 ^ 32 -> 0 <= sidx < 2 ^ 32 -> Z.of_nat (length recs) < 2 ^ 31 ->
  Forall is_byte (bdat s) -> (bpos s <= 8 * length (bdat s))%nat ->
  zbag s init sl kidx sidx t recs = Some (s', sl') ->
  wrc s s' (bits_init init ++ bits_bag (sseen sl) kidx sidx (smem sl) (tfields t) recs)
  /\ sl' = mkslot (match recs with [] => sseen sl | _ => true end) (last recs (smem sl)).
Proof.
  intros Hf Hr Hm Hdf Hk Hs Hn Hd Hp H. unfold zbag in H.
  destruct (match init with Some b => bput s (Z.b2z b) 1 | None => Some s end) as [s1|] eqn:E1; [|discriminate].
  assert (W1 : wrc s s1 (bits_init init)).
  { destruct init as [b|]; [apply bput_wrc; auto; lia|]. injection E1 as <-. apply wrc_nil; assumption. }
  destruct (bput s1 _ 1) as [s2|] eqn:E2; [|discriminate].
  apply bput_wrc in E2; [|eapply wrc_byte; eassumption|eapply wrc_cap; eassumption|lia].
  destruct (bput_uint s2 kidx) as [s3|] eqn:E3; [|discriminate].
  apply bput_uint_wrc in E3; [|eapply wrc_byte; eassumption|eapply wrc_cap; eassumption|lia].
  destruct (bput_uint s3 sidx) as [s4|] eqn:E4; [|discriminate].
  apply bput_uint_wrc in E4; [|eapply wrc_byte; eassumption|eapply wrc_cap; eassumption|lia].
  destruct (bput_uint s4 _) as [s5|] eqn:E5; [|discriminate].
  apply bput_uint_wrc in E5; [|eapply wrc_byte; eassumption|eapply wrc_cap; eassumption|lia].
  destruct (zput_recs s5 _ _ _) as [[s6 m]|] eqn:E6; [|discriminate].
  apply (zput_recs_wrc (tsize t)) in E6; auto; [|eapply wrc_byte; eassumption|eapply wrc_cap; eassumption].
  destruct E6 as [W6 ->]. injection H as <- <-. split; [|reflexivity].
  unfold bits_bag, bits_hdr. rewrite <- !app_assoc. repeat (eapply wrc_app; [eassumption|]). assumption.
Qed.

Lemma align8_spec p : align8 p = (8 * ((p + 7) / 8))%nat.
Proof.
  unfold align8. assert (Hdm := Nat.div_mod p 8 ltac:(lia)). assert (Hm := Nat.mod_upper_bound p 8 ltac:(lia)).
  set (q := (p / 8)%nat) in *. set (r := (p mod 8)%nat) in *. clearbody q r. subst p.
  destruct r as [|r].
  - cbn [Nat.sub]. rewrite Nat.mod_same by lia.
    replace ((8 * q + 0 + 7) / 8)%nat with q; [lia|]. apply (Nat.div_unique _ 8 q 7); lia.
  - rewrite (Nat.mod_small (8 - S r)) by lia.
    replace ((8 * q + S r + 7) / 8)%nat with (S q); [lia|]. apply (Nat.div_unique _ 8 (S q) r); lia.
Qed.

Lemma nth_firstn' (l : list Z) n k : (k < n)%nat -> nth k (firstn n l) 0 = nth k l 0.
Proof. intros H. assert (E := nth_firstn_skipn l 0 n k H). exact E. Qed.

Lemma bitat_firstn d n i : (i < 8 * n)%nat -> bitat (firstn n d) i = bitat d i.
Proof.
  intros H. unfold bitat. rewrite nth_firstn'; [reflexivity|].
  apply Nat.div_lt_upper_bound; lia.
Qed.

Lemma holds_firstn d n p bs : holds d p bs -> (p + length bs <= 8 * n)%nat -> holds (firstn n d) p bs.
Proof. intros H Hl j Hj. rewrite bitat_firstn by lia. apply H. assumption. Qed.

Lemma firstn_byte (l : list Z) n : Forall is_byte l -> Forall is_byte (firstn n l).
Proof. intros H. assert (E := slice_byte l 0 n H). exact E. Qed.

(** bits of the trailing bag counter *)
Definition bits_bags (bags : Z) : list bool :=
  if bags <=? 250 then tobits 8 bags
  else if bags <=? 65535 then tobits 16 bags ++ tobits 8 251
  else tobits 32 bags ++ tobits 8 252.

Lemma zset_bags_ok s bs bags s' n : cont s bs -> 0 < bags < 2 ^ 31 ->
  zset_bags s bags = Some (s', n) ->
  cont s' bs /\ bpos s' = bpos s /\ length (bits_bags bags) = (8 * n)%nat
  /\ holds (bdat s') (8 * ((bpos s + 7) / 8)) (bits_bags bags)
  /\ ((bpos s + 7) / 8 + n <= length (bdat s'))%nat.
Proof.
  intros [A1 A2 A3 A4] Hb H. unfold zset_bags in H.
  rewrite align8_spec in H. set (q := ((bpos s + 7) / 8)%nat) in *.
  assert (Hq : (bpos s <= 8 * q)%nat).
  { subst q. assert (X := Nat.div_mod (bpos s + 7) 8 ltac:(lia)). assert (Y := Nat.mod_upper_bound (bpos s + 7) 8 ltac:(lia)). lia. }
  assert (Hq2 : (8 * q <= 8 * length (bdat s))%nat).
  { apply Nat.mul_le_mono_l. subst q.
    assert (X : ((bpos s + 7) / 8 < S (length (bdat s)))%nat) by (apply Nat.div_lt_upper_bound; lia). lia. }
  set (a := mkbs (bdat s) (8 * q)) in *.
  assert (Ha : Forall is_byte (bdat a)) by exact A1.
  assert (Hc : (bpos a <= 8 * length (bdat a))%nat) by exact Hq2.
  assert (Hfin : forall t m, wrc a t (bits_bags bags) -> length (bits_bags bags) = (8 * m)%nat ->
            s' = mkbs (bdat t) (bpos s) -> n = m ->
            cont s' bs /\ bpos s' = bpos s /\ length (bits_bags bags) = (8 * n)%nat
            /\ holds (bdat s') (8 * q) (bits_bags bags) /\ (q + n <= length (bdat s'))%nat).
  { intros t m [W C] HL -> ->. split; [split|]; cbn [bdat bpos].
    - apply W.
    - assumption.
    - eapply wr_holds_before; [exact W|exact A3|]. cbn [bpos a]. lia.
    - rewrite (wr_len _ _ _ W). cbn [bdat a]. lia.
    - split; [reflexivity|]. split; [assumption|]. split; [apply (wr_new _ _ _ W)|].
      rewrite (wr_pos _ _ _ W) in C. cbn [bpos a] in C. lia. }
  unfold bits_bags in *.
  destruct (Z.leb_spec bags 250).
  - destruct (Z.ltb_spec 0 bags); [|lia]. cbn [andb] in H.
    destruct (bput a bags 8) as [t|] eqn:E; [|discriminate]. injection H as <- <-.
    apply bput_wrc in E; [|assumption|assumption|lia].
    apply (Hfin t 1%nat E); auto.
  - cbn [andb] in H. destruct (Z.leb_spec bags 65535).
    + destruct (bput2 a bags 16 251 8) as [t|] eqn:E; [|discriminate]. injection H as <- <-.
      unfold bput2 in E. destruct (bput a bags 16) as [t1|] eqn:E1; [|discriminate].
      apply bput_wrc in E1; [|assumption|assumption|lia].
      apply bput_wrc in E; [|eapply wrc_byte; eassumption|eapply wrc_cap; eassumption|lia].
      apply (Hfin t 3%nat); auto. eapply wrc_app; eassumption.
    + destruct (bput2 a bags 32 252 8) as [t|] eqn:E; [|discriminate]. injection H as <- <-.
      unfold bput2 in E. destruct (bput a bags 32) as [t1|] eqn:E1; [|discriminate].
      apply bput_wrc in E1; [|assumption|assumption|lia].
      apply bput_wrc in E; [|eapply wrc_byte; eassumption|eapply wrc_cap; eassumption|lia].
      apply (Hfin t 5%nat); auto. eapply wrc_app; eassumption.
Qed.

Lemma packet_ok s bs bags s' n : cont s bs -> 0 < bags < 2 ^ 31 ->
  zset_bags s bags = Some (s', n) ->
  let pkt := firstn (zgetsize s' n) (bdat s') in
  rd (mkbs pkt 0) (mkbs pkt (bpos s)) bs /\ zget_bags pkt = Some bags.
Proof.
  intros C Hb H. destruct (zset_bags_ok _ _ _ _ _ C Hb H) as (C' & P & L & HH & HL).
  cbn zeta. unfold zgetsize. rewrite P. set (q := ((bpos s + 7) / 8)%nat) in *.
  assert (Hq : (bpos s <= 8 * q)%nat).
  { subst q. assert (X := Nat.div_mod (bpos s + 7) 8 ltac:(lia)). assert (Y := Nat.mod_upper_bound (bpos s + 7) 8 ltac:(lia)). lia. }
  set (pkt := firstn (q + n) (bdat s')).
  assert (Lp : length pkt = (q + n)%nat) by (unfold pkt; rewrite firstn_length; lia).
  assert (Bp : Forall is_byte pkt) by (apply firstn_byte; apply C').
  destruct C' as [C1 C2 C3 C4].
  split.
  - split; cbn [bdat bpos]; auto.
    + apply holds_firstn; [assumption|]. lia.
    + lia.
    + lia.
  - assert (HT : holds pkt (8 * q) (bits_bags bags)) by (apply holds_firstn; [assumption|lia]).
    unfold zget_bags. rewrite Lp.
    assert (R : forall p k v, holds pkt p (tobits k v) -> (1 <= k <= 64)%nat -> (p + k <= 8 * (q + n))%nat ->
              0 <= v < 2 ^ Z.of_nat k -> bget (mkbs pkt p) k = Some (v, mkbs pkt (p + k))).
    { intros p k v Hh Hk Hpk Hv. apply bget_rd_small; auto.
      split; cbn [bdat bpos]; auto; rewrite tobits_length; lia. }
    unfold bits_bags in *.
    destruct (Z.leb_spec bags 250).
    + rewrite tobits_length in L. assert (n = 1%nat) by lia. subst n.
      replace (8 * (q + 1) - 8)%nat with (8 * q)%nat by lia.
      rewrite (R _ 8%nat bags HT) by (cbn [Z.of_nat Pos.of_succ_nat Pos.succ]; lia).
      destruct (Z.leb_spec bags 250); [reflexivity|lia].
    + destruct (Z.leb_spec bags 65535).
      * rewrite app_length, !tobits_length in L. assert (n = 3%nat) by lia. subst n.
        apply holds_app in HT. destruct HT as [T1 T2]. rewrite tobits_length in T2.
        replace (8 * (q + 3) - 8)%nat with (8 * q + 16)%nat by lia.
        rewrite (R _ 8%nat 251 T2) by (cbn [Z.of_nat Pos.of_succ_nat Pos.succ]; lia).
        cbn [Z.leb Z.compare Pos.compare Pos.compare_cont Z.eqb Pos.eqb].
        replace (8 * (q + 3) - 24)%nat with (8 * q)%nat by lia.
        rewrite (R _ 16%nat bags T1) by (change (2 ^ Z.of_nat 16) with 65536; lia).
        rewrite to_s_small by (change (32 - 1) with 31; lia). reflexivity.
      * rewrite app_length, !tobits_length in L. assert (n = 5%nat) by lia. subst n.
        apply holds_app in HT. destruct HT as [T1 T2]. rewrite tobits_length in T2.
        replace (8 * (q + 5) - 8)%nat with (8 * q + 32)%nat by lia.
        rewrite (R _ 8%nat 252 T2) by (cbn [Z.of_nat Pos.of_succ_nat Pos.succ]; lia).
        cbn [Z.leb Z.compare Pos.compare Pos.compare_cont Z.eqb Pos.eqb].
        replace (8 * (q + 5) - 40)%nat with (8 * q)%nat by lia.
        rewrite (R _ 32%nat bags T1) by (change (2 ^ Z.of_nat 32) with (2 ^ 32); lia).
        rewrite to_s_small by (change (32 - 1) with 31; lia). reflexivity.
Qed.

(** *** the specification's step condition gives the 64-bit differences *)
Lemma to_s_mod w z : 0 < w -> to_s w z mod 2 ^ w = z mod 2 ^ w.
Proof. intros H. exact (to_u_to_s w z H). Qed.

Lemma eval_small f rec i : (flen f < 8)%nat -> Forall is_byte rec -> (foff f + i * flen f + flen f <= length rec)%nat ->
  - 2 ^ 32 < eval f rec i < 2 ^ 32.
Proof.
  intros Hn Hb Hl. unfold eval. destruct (int_len (flen f)) eqn:E; [|lia]. cbn zeta.
  assert (Hw := word_bound rec _ (flen f) Hb Hl).
  set (w := word rec (foff f + i * flen f) (flen f)) in *.
  assert (Hw' : 0 <= w < 2 ^ 32).
  { apply int_len_cases in E. destruct E as [E|[E|[E|E]]]; rewrite E in *; cbn in Hw; lia. }
  destruct (fstyle f =? ty_int).
  - apply int_len_cases in E.
    destruct E as [E|[E|[E|E]]]; rewrite E; try lia.
    + assert (H := to_s_range (8 * Z.of_nat 1) w ltac:(lia)). change (8 * Z.of_nat 1) with 8 in *. change (8 - 1) with 7 in H. lia.
    + assert (H := to_s_range (8 * Z.of_nat 2) w ltac:(lia)). change (8 * Z.of_nat 2) with 16 in *. change (16 - 1) with 15 in H. lia.
    + assert (H := to_s_range (8 * Z.of_nat 4) w ltac:(lia)). change (8 * Z.of_nat 4) with 32 in *. change (32 - 1) with 31 in H. lia.
  - rewrite to_s_small by (change (64 - 1) with 63; lia). lia.
Qed.

Lemma step_diffs n fs prev cur : Forall (field_ok n) fs -> rec_ok n prev -> rec_ok n cur ->
  step_ok (columns fs) prev cur ->
  diffs_ok fs prev cur.
Proof.
  intros Hf [P1 P2] [Q1 Q2] HS f i Hin Hi Hs. assert (Hb := elem_bound f i Hi).
  rewrite Forall_forall in Hf. destruct (Hf f Hin) as (F1 & F2 & F3).
  destruct (int_len (flen f)) eqn:E.
  2:{ unfold eval. rewrite E. cbn. lia. }
  destruct (Nat.eq_dec (flen f) 8) as [E8|E8].
  - unfold eval. rewrite E, E8. cbn zeta. change (8 * Z.of_nat 8) with 64.
    assert (H := HS (mkcol (foff f) (flen f) (fcount f)) i). cbn [c_off c_len c_count] in H.
    specialize (H ltac:(apply in_map_iff; exists f; split; [reflexivity|apply filter_In; rewrite Hs, E; auto]) E8 Hi).
    assert (X : (if fstyle f =? ty_int then to_s 64 (word cur (foff f + i * 8) 8) else to_s 64 (word cur (foff f + i * 8) 8))
              = to_s 64 (word cur (foff f + i * 8) 8)) by (destruct (fstyle f =? ty_int); reflexivity).
    assert (Y : (if fstyle f =? ty_int then to_s 64 (word prev (foff f + i * 8) 8) else to_s 64 (word prev (foff f + i * 8) 8))
              = to_s 64 (word prev (foff f + i * 8) 8)) by (destruct (fstyle f =? ty_int); reflexivity).
    rewrite X, Y. rewrite Zminus_mod, !to_s_mod, <- Zminus_mod by lia. exact H.
  - assert (Hs1 : (flen f < 8)%nat) by (apply int_len_cases in E; lia).
    assert (A := eval_small f cur i Hs1 Q2 ltac:(lia)). assert (B := eval_small f prev i Hs1 P2 ltac:(lia)).
    set (x := eval f cur i - eval f prev i) in *. intros H.
    assert (Hdm := Z.div_mod x (2 ^ 64) ltac:(lia)). rewrite H in Hdm.
    set (q := x / 2 ^ 64) in *. lia.
Qed.
