(** Lemmas for the conversion of records. *)
From Verif Require Import Base S_server S_map S_table M_dynamic M_table L_map L_incrzip L_table.
From Coq Require Import ZifyBool ZifyNat Permutation.

Definition like (f : tfield) (d : fdef) : Prop :=
  f_style f = df_style d /\ Z.of_nat (f_len f) = df_len d /\ Z.of_nat (f_count f) = df_count d.

Lemma whole_len_int f d : like f d -> whole_len (df_len d) = int_len (f_len f).
Proof.
  intros (_ & L & _). rewrite <- L. unfold whole_len, int_len. destruct (f_at f) as [st n c o]. cbn [flen].
  do 9 (destruct n as [|n]; [reflexivity|]). lia.
Qed.

Section Conv.
Variables (idate mktime : Z -> Z).
Variable fconv : tfield -> tfield -> list Z -> Z.
Notation conv_elem := (conv_elem idate mktime fconv).
Notation conv_loop := (conv_loop idate mktime fconv).
Notation shift := (shift idate mktime fconv).
Notation owner_rec := (owner_rec idate mktime fconv).

(** element [i] of field [f] *)
Definition epos (f : tfield) (i : nat) : nat := (f_off f + i * f_len f)%nat.
Definition elem (f : tfield) (rec : list Z) (i : nat) : list Z := bytes_at rec (epos f i) (f_len f).
(** [out'] differs from [out] only in [n] bytes at [off] *)
Definition only_at (off n : nat) (out out' : list Z) : Prop :=
  length out' = length out /\ forall j, (j < off \/ off + n <= j)%nat -> nth j out' 0 = nth j out 0.

Lemma only_refl off n out : only_at off n out out.
Proof. split; [reflexivity|]. intros. reflexivity. Qed.
Lemma only_bytes off n out out' o m : only_at off n out out' -> (o + m <= length out)%nat -> (o + m <= off \/ off + n <= o)%nat ->
  bytes_at out' o m = bytes_at out o m.
Proof. intros (L & H) B D. apply bytes_ext; [lia|exact L|]. intros i Hi. apply H. lia. Qed.

Lemma fset_only f out v i : (epos f i + f_len f <= length out)%nat ->
  exists out', fset (f_at f) out v i = Some out' /\ only_at (epos f i) (f_len f) out out' /\
    (int_len (f_len f) = true -> elem f out' i = le_bytes (f_len f) v).
Proof.
  intros H. destruct (int_len (f_len f)) eqn:E.
  - destruct (fset_spec (f_at f) out v i E) as (o & A & B & C & D); [exact H|].
    exists o. split; [exact A|]. split; [split; [exact B|exact D]|]. intros _. exact C.
  - exists out. unfold fset. rewrite E. split; [reflexivity|]. split; [apply only_refl|]. discriminate.
Qed.
Lemma fset_real_only f out v i : (epos f i + f_len f <= length out)%nat -> f_len f = 4%nat \/ f_len f = 8%nat ->
  exists out', fset_real (f_at f) out (le_bytes 8 v) i = Some out' /\ only_at (epos f i) (f_len f) out out'.
Proof.
  intros H L. unfold epos in *.
  assert (X : forall b, length b = f_len f -> exists out', splice out (f_off f + i * f_len f) b = Some out' /\ only_at (f_off f + i * f_len f) (f_len f) out out').
  { intros b Lb. destruct (splice_spec out (f_off f + i * f_len f) b) as (o & A & B & _ & D); [lia|].
    exists o. split; [exact A|]. rewrite Lb in D. split; [exact B|exact D]. }
  unfold fset_real. destruct L as [L|L]; rewrite L in *; cbn [Nat.eqb Nat.ltb Nat.leb]; apply X; reflexivity.
Qed.

Lemma time_same k v : time_kind k = true -> time_convert idate mktime k k v = v.
Proof.
  unfold time_kind, time_convert, K_TSEC, K_MSEC, K_MINU, K_DATE. intros H.
  destruct (Z.eq_dec k 83) as [->|N1]; [reflexivity|]. destruct (Z.eq_dec k 84) as [->|N2]; [reflexivity|].
  destruct (Z.eq_dec k 77) as [->|N3]; [reflexivity|]. destruct (Z.eq_dec k 68) as [->|N4]; [reflexivity|]. lia.
Qed.
Lemma time_other k k' v : time_kind k = false -> time_convert idate mktime k k' v = v.
Proof.
  unfold time_kind, time_convert. intros H.
  destruct (k =? K_TSEC); [discriminate|]. destruct (k =? K_MSEC); [discriminate|].
  destruct (k =? K_MINU); [discriminate|]. destruct (k =? K_DATE); [discriminate|]. reflexivity.
Qed.

Definition zero_at (out : list Z) (off n : nat) : Prop := bytes_at out off n = repeat 0 n.

Lemma conv_elem_spec fi fo d d' inr out i :
  like fi d -> like fo d' -> (df_style d =? df_style d') && (df_len d =? df_len d') = false ->
  (real_kind (f_style fo) = true -> f_len fo = 4%nat \/ f_len fo = 8%nat) ->
  (epos fi i + f_len fi <= length inr)%nat -> (epos fo i + f_len fo <= length out)%nat ->
  exists out', conv_elem fi fo inr out i = Some out' /\ only_at (epos fo i) (f_len fo) out out' /\
    (zero_at out (epos fo i) (f_len fo) -> kept d d' (elem fi inr i) (elem fo out' i)).
Proof.
  intros Li Lo NE RK Bi Bo.
  pose proof (whole_len_int fi d Li) as Wi. pose proof (whole_len_int fo d' Lo) as Wo.
  destruct Li as (Si & Ni & Ci). destruct Lo as (So & No & Co).
  unfold kept. cbv zeta. rewrite NE. clear NE. rewrite <- Ni in Wi. rewrite <- No in Wo. rewrite <- Si, <- So, <- Ni, <- No. rewrite !Nat2Z.id.
  unfold M_table.conv_elem.
  assert (SET : forall v, exists out', fset (f_at fo) out v i = Some out' /\ only_at (epos fo i) (f_len fo) out out' /\
     (int_len (f_len fo) = true -> le_val (elem fo out' i) = v mod 2 ^ (8 * Z.of_nat (f_len fo)))).
  { intros v. destruct (fset_only fo out v i Bo) as (o & A & B & C). exists o. split; [exact A|]. split; [exact B|].
    intros E. rewrite (C E), le_val_bytes. destruct (int_len_pow _ E) as (-> & _). reflexivity. }
  assert (REAL : forall v, real_kind (f_style fo) = true -> exists out', fset_real (f_at fo) out (le_bytes 8 v) i = Some out' /\ only_at (epos fo i) (f_len fo) out out').
  { intros v R. apply fset_real_only; [exact Bo|apply RK, R]. }
  set (k := f_style fi) in *. set (k' := f_style fo) in *.
  destruct (k =? K_INT) eqn:EI.
  { assert (k = K_INT) by lia. unfold fget_int. rewrite slice_bytes by exact Bi.
    fold (epos fi i). fold (elem fi inr i).
    set (v := if int_len (f_len fi) then to_s (8 * Z.of_nat (f_len fi)) (le_val (elem fi inr i)) else 0).
    replace (if int_len (f_len fi) then Some (to_s (8 * Z.of_nat (f_len fi)) (le_val (elem fi inr i))) else Some 0) with (Some v)
      by (unfold v; destruct (int_len (f_len fi)); reflexivity).
    destruct ((k' =? K_INT) || (k' =? K_PRICE) || nat_kind k') eqn:T1.
    { destruct (SET v) as (o & A & B & C). exists o. split; [exact A|]. split; [exact B|]. intros _.
      replace ((k =? K_CHAR) && _) with false by (unfold K_CHAR, K_INT in *; lia).
      destruct (_ && _) eqn:W; [|exact I].
      rewrite Wi, Wo in W. unfold number. rewrite EI. unfold v in C. destruct (int_len (f_len fi)); [|lia].
      apply C. lia. }
    replace ((k =? K_CHAR) && _) with false by (unfold K_CHAR, K_INT in *; lia).
    assert (W0 : whole_kind k' = false) by (unfold whole_kind, nat_kind in *; lia). rewrite W0.
    rewrite !andb_false_r. cbn [andb].
    destruct (k' =? K_FLOAT) eqn:T2.
    { destruct (REAL (fconv fi fo (le_bytes 8 v))) as (o & A & B); [unfold real_kind; rewrite T2; reflexivity|].
      exists o. split; [exact A|]. split; [exact B|]. trivial. }
    exists out. split; [reflexivity|]. split; [apply only_refl|]. trivial. }
  destruct (nat_kind k) eqn:EN.
  { unfold fget_uint. rewrite slice_bytes by exact Bi. fold (epos fi i). fold (elem fi inr i).
    set (v := if int_len (f_len fi) then le_val (elem fi inr i) else 0).
    replace (if int_len (f_len fi) then Some (le_val (elem fi inr i)) else Some 0) with (Some v)
      by (unfold v; destruct (int_len (f_len fi)); reflexivity).
    replace ((k =? K_CHAR) && _) with false by (unfold nat_kind, time_kind, K_CHAR, K_UINT, K_TSEC, K_MSEC, K_MINU, K_DATE in *; lia).
    destruct ((k' =? K_INT) || (k' =? K_PRICE) || (k' =? K_UINT)) eqn:T1.
    { destruct (SET v) as (o & A & B & C). exists o. split; [exact A|]. split; [exact B|]. intros _.
      destruct (_ && _) eqn:W; [|exact I].
      rewrite Wi, Wo in W. unfold number. rewrite EI. unfold v in C. destruct (int_len (f_len fi)); [|lia].
      apply C. lia. }
    destruct (time_kind k') eqn:T2.
    { destruct (SET (time_convert idate mktime k k' v)) as (o & A & B & C). exists o. split; [exact A|]. split; [exact B|]. intros _.
      destruct (_ && _) eqn:W; [|exact I].
      rewrite Wi, Wo in W. unfold number. rewrite EI.
      assert (TC : time_convert idate mktime k k' v = v).
      { destruct (time_kind k) eqn:TK; [|apply time_other; exact TK].
        assert (k = k') by lia. replace k' with k by assumption. apply time_same. exact TK. }
      rewrite TC in C. unfold v in C. destruct (int_len (f_len fi)); [|lia]. apply C. lia. }
    assert (W0 : whole_kind k' = false) by (unfold whole_kind in *; lia). rewrite W0.
    rewrite !andb_false_r. cbn [andb].
    destruct (k' =? K_FLOAT) eqn:T3.
    { destruct (REAL (fconv fi fo (le_bytes 8 v))) as (o & A & B); [unfold real_kind; rewrite T3; reflexivity|].
      exists o. split; [exact A|]. split; [exact B|]. trivial. }
    exists out. split; [reflexivity|]. split; [apply only_refl|]. trivial. }
  assert (W0 : whole_kind k = false) by (unfold whole_kind, nat_kind in *; lia). rewrite W0. cbn [andb].
  destruct ((k =? K_FLOAT) || (k =? K_PRICE)) eqn:EF.
  { replace ((k =? K_CHAR) && _) with false by (unfold K_FLOAT, K_PRICE, K_CHAR in *; lia).
    assert (G : exists b, fget_real (f_at fi) inr i = Some b).
    { unfold fget_real. destruct (Nat.eqb (f_len fi) 4 || Nat.eqb (f_len fi) 8)%bool; [|eexists; reflexivity]. rewrite slice_bytes by exact Bi. eexists. reflexivity. }
    destruct G as (b & ->).
    destruct ((k' =? K_INT) || nat_kind k') eqn:T1.
    { destruct (SET (fconv fi fo b)) as (o & A & B & C). exists o. split; [exact A|]. split; [exact B|]. trivial. }
    destruct ((k' =? K_FLOAT) || (k' =? K_PRICE)) eqn:T2.
    { destruct (REAL (fconv fi fo b)) as (o & A & B); [exact T2|]. exists o. split; [exact A|]. split; [exact B|]. trivial. }
    exists out. split; [reflexivity|]. split; [apply only_refl|]. trivial. }
  destruct (k =? K_CHAR) eqn:EC; cbn [andb]; [|exists out; split; [reflexivity|]; split; [apply only_refl|intros _; exact I]].
  destruct (k' =? K_CHAR) eqn:EC'; cbn [andb]; [|exists out; split; [reflexivity|]; split; [apply only_refl|intros _; exact I]].
  fold (epos fi i). fold (epos fo i). set (m := Nat.min (f_len fi) (f_len fo)).
  rewrite slice_bytes by lia.
  assert (Lm : length (bytes_at inr (epos fi i) m) = m) by (apply bytes_at_length; lia).
  destruct (splice_spec out (epos fo i) (bytes_at inr (epos fi i) m)) as (o & A & B & C & D); [lia|].
  rewrite Lm in C, D. exists o. split; [exact A|]. split.
  { split; [exact B|]. intros j Hj. apply D. lia. }
  intros Z0. unfold elem. apply list_nth_eq.
  { rewrite bytes_at_length by lia. rewrite firstn_length, app_length, repeat_length. lia. }
  intros j Hj. rewrite bytes_at_length in Hj by lia. rewrite nth_bytes_at by exact Hj.
  pose proof (nth_firstn_skipn (bytes_at inr (epos fi i) (f_len fi) ++ repeat 0 (f_len fo)) 0 (f_len fo) j Hj) as X. cbn [skipn Nat.add] in X. rewrite X. clear X.
  destruct (Nat.lt_ge_cases j (f_len fi)) as [L|L].
  - rewrite app_nth1 by (rewrite bytes_at_length by lia; exact L).
    rewrite C by lia. rewrite !nth_bytes_at by lia. reflexivity.
  - rewrite app_nth2 by (rewrite bytes_at_length by lia; exact L). rewrite nth_repeat.
    rewrite D by lia. unfold zero_at in Z0.
    rewrite <- (nth_bytes_at out (epos fo i) (f_len fo) j Hj), Z0. apply nth_repeat.
Qed.

Lemma zero_sub out off n o m : zero_at out off n -> (off <= o)%nat -> (o + m <= off + n)%nat -> (off + n <= length out)%nat -> zero_at out o m.
Proof.
  unfold zero_at. intros Z0 A B L. apply list_nth_eq; [rewrite bytes_at_length, repeat_length by lia; reflexivity|].
  intros i Hi. rewrite bytes_at_length in Hi by lia. rewrite nth_bytes_at, nth_repeat by lia.
  pose proof (nth_bytes_at out off n (o + i - off) ltac:(lia)) as X. rewrite Z0, nth_repeat in X.
  replace (off + (o + i - off))%nat with (o + i)%nat in X by lia. symmetry. exact X.
Qed.
Lemma only_trans off n a b c : only_at off n a b -> only_at off n b c -> only_at off n a c.
Proof. intros (L & H) (L' & H'). split; [congruence|]. intros j Hj. rewrite H' by exact Hj. apply H, Hj. Qed.
Lemma only_widen off n o m a b : only_at o m a b -> (off <= o)%nat -> (o + m <= off + n)%nat -> only_at off n a b.
Proof. intros (L & H) A B. split; [exact L|]. intros j Hj. apply H. lia. Qed.

Lemma conv_loop_spec fi fo d d' inr :
  like fi d -> like fo d' -> (df_style d =? df_style d') && (df_len d =? df_len d') = false ->
  (real_kind (f_style fo) = true -> f_len fo = 4%nat \/ f_len fo = 8%nat) ->
  forall n i out, (epos fi (i + n) <= length inr)%nat -> (epos fo (i + n) <= length out)%nat ->
  zero_at out (epos fo i) (n * f_len fo) ->
  exists out', conv_loop n i fi fo inr out = Some out' /\ only_at (epos fo i) (n * f_len fo) out out' /\
    forall j, (i <= j < i + n)%nat -> kept d d' (elem fi inr j) (elem fo out' j).
Proof.
  intros Li Lo NE RK. induction n as [|n IH]; intros i out Bi Bo Z0.
  - exists out. split; [reflexivity|]. split; [apply only_refl|]. intros j Hj. lia.
  - unfold epos in Bi, Bo.
    assert (B1 : (epos fi i + f_len fi <= length inr)%nat) by (unfold epos; nia).
    assert (B2 : (epos fo i + f_len fo <= length out)%nat) by (unfold epos; nia).
    destruct (conv_elem_spec fi fo d d' inr out i Li Lo NE RK B1 B2) as (o1 & A & B & C).
    assert (Z1 : zero_at out (epos fo i) (f_len fo)).
    { eapply zero_sub; [exact Z0|lia|cbn; lia|unfold epos; nia]. }
    assert (E1 : (epos fo (S i) = epos fo i + f_len fo)%nat) by (unfold epos; nia).
    assert (Lo1 : length o1 = length out) by apply B.
    destruct (IH (S i) o1) as (o2 & A2 & B3 & C2).
    { unfold epos. nia. } { rewrite Lo1. unfold epos. nia. }
    { unfold zero_at. rewrite (only_bytes _ _ _ _ _ _ B) by (rewrite ?E1; unfold epos in *; nia).
      eapply zero_sub; [exact Z0|lia|rewrite E1; nia|unfold epos; nia]. }
    exists o2. cbn [M_table.conv_loop]. rewrite A. split; [exact A2|]. split.
    { eapply only_trans; [eapply only_widen; [exact B|lia|nia]|]. eapply only_widen; [exact B3|lia|rewrite E1; nia]. }
    intros j Hj. destruct (Nat.eq_dec i j) as [<-|N]; [|apply C2; lia].
    replace (elem fo o2 i) with (elem fo o1 i); [apply C, Z1|].
    symmetry. unfold elem. apply (only_bytes _ _ _ _ _ _ B3); [rewrite Lo1; exact B2|]. left. rewrite E1. lia.
Qed.

Lemma shift_spec fi fo d d' inr out :
  like fi d -> like fo d' -> (real_kind (f_style fo) = true -> f_len fo = 4%nat \/ f_len fo = 8%nat) ->
  (f_off fi + f_len fi * f_count fi <= length inr)%nat -> (f_off fo + f_len fo * f_count fo <= length out)%nat ->
  zero_at out (f_off fo) (f_len fo * f_count fo) ->
  exists out', shift fi fo inr out = Some out' /\ only_at (f_off fo) (f_len fo * f_count fo) out out' /\
    forall i, (i < f_count fo)%nat -> if (i <? f_count fi)%nat then kept d d' (elem fi inr i) (elem fo out' i) else elem fo out' i = repeat 0 (f_len fo).
Proof.
  intros Li Lo RK Bi Bo Z0. set (n := Nat.min (f_count fi) (f_count fo)).
  assert (REST : forall out', only_at (f_off fo) (n * f_len fo) out out' -> forall i, (n <= i < f_count fo)%nat -> elem fo out' i = repeat 0 (f_len fo)).
  { intros out' O i Hi. unfold elem. rewrite (only_bytes _ _ _ _ _ _ O) by (unfold epos; nia).
    eapply zero_sub; [exact Z0| |..]; unfold epos; nia. }
  assert (FIN : forall out', only_at (f_off fo) (n * f_len fo) out out' ->
     (forall j, (0 <= j < 0 + n)%nat -> kept d d' (elem fi inr j) (elem fo out' j)) ->
     only_at (f_off fo) (f_len fo * f_count fo) out out' /\
     forall i, (i < f_count fo)%nat -> if (i <? f_count fi)%nat then kept d d' (elem fi inr i) (elem fo out' i) else elem fo out' i = repeat 0 (f_len fo)).
  { intros out' O K. split; [eapply only_widen; [exact O|lia|nia]|]. intros i Hi.
    destruct (i <? f_count fi)%nat eqn:E; [apply K; lia|apply (REST out' O); lia]. }
  unfold M_table.shift. destruct (negb (f_style fi =? f_style fo) || negb (Nat.eqb (f_len fi) (f_len fo))) eqn:E.
  - destruct Li as (Si & Ni & Ci). destruct Lo as (So & No & Co).
    destruct (conv_loop_spec fi fo d d' inr (conj Si (conj Ni Ci)) (conj So (conj No Co)) ltac:(lia) RK n 0 out) as (o & A & B & C).
    { unfold epos. nia. } { unfold epos. nia. }
    { eapply zero_sub; [exact Z0| |..]; unfold epos; nia. }
    unfold epos in B. cbn [Nat.mul] in B. rewrite Nat.add_0_r in B.
    exists o. split; [exact A|]. apply FIN; [exact B|exact C].
  - assert (E1 : f_style fi = f_style fo) by lia. assert (E2 : f_len fi = f_len fo) by lia.
    unfold unit_copy. fold n. rewrite slice_bytes by nia.
    assert (Lb : length (bytes_at inr (f_off fi) (f_len fi * n)) = (f_len fi * n)%nat) by (apply bytes_at_length; nia).
    destruct (splice_spec out (f_off fo) (bytes_at inr (f_off fi) (f_len fi * n))) as (o & A & B & C & D); [rewrite Lb; nia|].
    rewrite Lb in C, D. exists o. split; [exact A|]. apply FIN.
    + split; [exact B|]. intros j Hj. apply D. nia.
    + intros j Hj. unfold kept. cbv zeta. destruct Li as (Si & Ni & Ci). destruct Lo as (So & No & Co).
      replace ((df_style d =? df_style d') && (df_len d =? df_len d')) with true by lia.
      unfold elem. apply list_nth_eq; [rewrite !bytes_at_length by (unfold epos; nia); exact (eq_sym E2)|].
      intros x Hx. rewrite bytes_at_length in Hx by (unfold epos; nia). rewrite !nth_bytes_at by lia.
      unfold epos. replace (f_off fo + j * f_len fo + x)%nat with (f_off fo + (j * f_len fo + x))%nat by lia.
      rewrite C by nia. rewrite nth_bytes_at by nia. f_equal. nia.
Qed.

(** what has become of a target field *)
Definition done_one (inr out : list Z) (c : tfield * option tfield) : Prop :=
  forall d d', like (fst c) d' -> match snd c with
    | Some fi => like fi d -> forall i, (i < f_count (fst c))%nat ->
        if (i <? f_count fi)%nat then kept d d' (elem fi inr i) (elem (fst c) out i) else elem (fst c) out i = repeat 0 (f_len (fst c))
    | None => forall i, (i < f_count (fst c))%nat -> elem (fst c) out i = repeat 0 (f_len (fst c))
    end.
Definition pair_ok (inr out : list Z) (c : tfield * option tfield) : Prop :=
  (exists d', like (fst c) d') /\
  (real_kind (f_style (fst c)) = true -> f_len (fst c) = 4%nat \/ f_len (fst c) = 8%nat) /\
  (f_off (fst c) + f_len (fst c) * f_count (fst c) <= length out)%nat /\
  zero_at out (f_off (fst c)) (f_len (fst c) * f_count (fst c)) /\
  match snd c with Some fi => (exists d, like fi d) /\ (f_off fi + f_len fi * f_count fi <= length inr)%nat | None => True end.
Definition pair_apart (a b : tfield * option tfield) : Prop := apart (range (fst a)) (range (fst b)).

Lemma done_one_ext inr out out' c : length out' = length out -> 
  (forall j, (f_off (fst c) <= j < f_off (fst c) + f_len (fst c) * f_count (fst c))%nat -> nth j out' 0 = nth j out 0) ->
  (f_off (fst c) + f_len (fst c) * f_count (fst c) <= length out)%nat ->
  done_one inr out c -> done_one inr out' c.
Proof.
  intros L H B D d d' K'.
  assert (E : forall i, (i < f_count (fst c))%nat -> elem (fst c) out' i = elem (fst c) out i).
  { intros i Hi. unfold elem. apply bytes_ext; [unfold epos; nia|exact L|]. intros j Hj. apply H. unfold epos in Hj. nia. }
  specialize (D d d' K'). destruct (snd c) as [fi|].
  - intros K i Hi. rewrite (E i Hi). apply D; assumption.
  - intros i Hi. rewrite (E i Hi). apply D; assumption.
Qed.

Lemma like_det f d e : like f d -> like f e -> df_style d = df_style e /\ df_len d = df_len e /\ df_count d = df_count e.
Proof. intros (A & B & C) (D & E & F). repeat split; congruence. Qed.
Lemma kept_det d d' e e' a b : df_style d = df_style e -> df_len d = df_len e -> df_style d' = df_style e' -> df_len d' = df_len e' ->
  kept d d' a b -> kept e e' a b.
Proof. intros A B C D. unfold kept. rewrite A, B, C, D. tauto. Qed.

Lemma owner_spec inr : forall cs out, Forall (pair_ok inr out) cs -> ForallOrdPairs pair_apart cs ->
  exists out', owner_rec cs inr out = Some out' /\ length out' = length out /\
    (forall j, Forall (fun c => (j < f_off (fst c) \/ f_off (fst c) + f_len (fst c) * f_count (fst c) <= j)%nat) cs -> nth j out' 0 = nth j out 0) /\
    Forall (done_one inr out') cs.
Proof.
  induction cs as [|[fo fi] cs IH]; intros out OK AP.
  - exists out. split; [reflexivity|]. split; [reflexivity|]. split; [reflexivity|constructor].
  - apply Forall_cons_iff in OK. destruct OK as [OK OKs].
    inversion AP as [|? ? AP1 AP2]; subst.
    assert (STEP : forall o1, only_at (f_off fo) (f_len fo * f_count fo) out o1 ->
       (M_table.owner_rec idate mktime fconv ((fo, fi) :: cs) inr out = owner_rec cs inr o1) -> done_one inr o1 (fo, fi) ->
       exists out', owner_rec ((fo, fi) :: cs) inr out = Some out' /\ length out' = length out /\
        (forall j, Forall (fun c => (j < f_off (fst c) \/ f_off (fst c) + f_len (fst c) * f_count (fst c) <= j)%nat) ((fo, fi) :: cs) -> nth j out' 0 = nth j out 0) /\
        Forall (done_one inr out') ((fo, fi) :: cs)).
    { intros o1 O EQ D1. destruct O as (L1 & O).
      assert (OK1 : Forall (pair_ok inr o1) cs).
      { rewrite Forall_forall in *. intros c Hc. destruct (OKs c Hc) as (A & B & C & D & E). specialize (AP1 c Hc).
        unfold pair_apart, apart, range in AP1. cbn [fst snd] in AP1.
        split; [exact A|]. split; [exact B|]. split; [lia|]. split; [|exact E].
        unfold zero_at. rewrite <- D. apply bytes_ext; [lia|lia|]. intros j Hj. apply O. lia. }
      destruct (IH o1 OK1 AP2) as (o2 & A & B & C & D). exists o2. rewrite EQ. split; [exact A|]. split; [lia|]. split.
      - intros j Hj. apply Forall_cons_iff in Hj. destruct Hj as [Hj1 Hj2]. rewrite C by exact Hj2. apply O. exact Hj1.
      - constructor; [|exact D]. destruct OK as (_ & _ & B0 & _). cbn [fst] in B0.
        apply (done_one_ext inr o1); cbn [fst]; [lia| |lia|exact D1].
        intros j Hj. apply C. rewrite Forall_forall in *. intros c Hc. specialize (AP1 c Hc).
        unfold pair_apart, apart, range in AP1. cbn [fst snd] in AP1. lia. }
    destruct OK as ((d' & K') & RK & B & Z0 & F). cbn [fst snd] in *.
    destruct fi as [fi|].
    + destruct F as ((d & K) & Bi).
      destruct (shift_spec fi fo d d' inr out K K' RK Bi B Z0) as (o1 & A1 & A2 & A3).
      apply (STEP o1 A2); [cbn [M_table.owner_rec]; rewrite A1; reflexivity|].
      intros e e' Ke' Ke i Hi. cbn [fst snd] in *. specialize (A3 i Hi).
      destruct (like_det _ _ _ K Ke) as (X1 & X2 & _). destruct (like_det _ _ _ K' Ke') as (Y1 & Y2 & _).
      destruct (i <? f_count fi)%nat; [|exact A3]. eapply kept_det; [..|exact A3]; assumption.
    + apply (STEP out (only_refl _ _ _)); [reflexivity|].
      intros e e' Ke'. cbn [fst snd] in *. intros i Hi. unfold elem. eapply zero_sub; [exact Z0| |..]; unfold epos; nia.
Qed.
End Conv.

(** * matching the tables *)
Lemma position_some l k i : position l k = Some i -> exists k1 v1, nth_error l i = Some (k1, v1) /\ low k1 = low k.
Proof.
  revert i. induction l as [|[k1 v1] l IH]; intros i H; [discriminate|]. cbn [position] in H.
  destruct (same_name k k1) eqn:E.
  - injection H as <-. exists k1, v1. split; [reflexivity|]. symmetry. apply same_name_lower. exact E.
  - destruct (position l k) as [j|]; [|discriminate]. injection H as <-. apply IH. reflexivity.
Qed.
Lemma layout_unique ds x y : In x (layout ds) -> In y (layout ds) -> low (df_name (fst x)) = low (df_name (fst y)) -> x = y.
Proof.
  intros Hx Hy E. apply In_nth_error in Hx, Hy. destruct Hx as (i & Hi), Hy as (j & Hj).
  destruct (Nat.eq_dec i j) as [->|N]; [congruence|].
  destruct (nth_names (fun x => low (df_name (fst x))) _ _ _ _ _ (places_nodup ds 0) Hi Hj N E).
Qed.
Lemma field_named_spec ds t n : tinv ds t ->
  (forall x, In x (layout ds) -> low (df_name (fst x)) = low n -> field_named t n = Some (make_unit (fst x) (snd x))) /\
  ((forall x, In x (layout ds) -> low (df_name (fst x)) <> low n) -> field_named t n = None) /\
  (forall f, field_named t n = Some f -> exists x, In x (layout ds) /\ low (df_name (fst x)) = low n /\ f = make_unit (fst x) (snd x)).
Proof.
  intros I. unfold field_named. destruct (position (t_fields t) n) as [i|] eqn:P.
  - destruct (position_some _ _ _ P) as (k & p & A & B). unfold field_at. rewrite A.
    destruct (tinv_at _ _ _ _ _ I A) as (y & Y1 & Y2 & Y3). rewrite Y3.
    split; [|split].
    + intros x X1 X2. rewrite (layout_unique ds x y X1 Y1) by congruence. reflexivity.
    + intros H. destruct (H y Y1). congruence.
    + intros f Hf. injection Hf as <-. exists y. split; [exact Y1|]. split; [congruence|reflexivity].
  - split; [|split; [reflexivity|discriminate]].
    intros x X1 X2. exfalso. destruct (tinv_place _ _ _ I X1) as (i & k & p & A & B & _).
    apply nth_error_In in A. apply (position_none _ _ P _ A). cbn [fst]. congruence.
Qed.

Definition changed (tin : table) (fo : tfield) : bool :=
  match field_named tin (f_name fo) with
  | Some f => negb (f_style f =? f_style fo) || negb (Nat.eqb (f_len f) (f_len fo)) || negb (Nat.eqb (f_count f) (f_count fo))
  | None => false
  end.
Definition pairing (tin : table) (fo : tfield) : tfield * option tfield := (fo, field_named tin (f_name fo)).
Definition ids (n : nat) : list Z := map (fun i => Z.of_nat i + 1) (seq 0 n).

Lemma position_fresh l k : ~ In (low k) (map (fun e => low (fst e)) l) -> position l k = None.
Proof.
  intros H. destruct (position l k) as [i|] eqn:P; [|reflexivity]. exfalso. apply H.
  destruct (position_some _ _ _ P) as (k1 & v1 & A & B). apply nth_error_In in A.
  apply in_map_iff. exists (k1, v1). split; [exact B|exact A].
Qed.
Lemma match_loop_spec tin fos : forall m conv ch,
  map (fun e => low (fst e)) m = map (fun c => low (f_name (fst c))) conv -> map snd m = ids (length conv) ->
  NoDup (map (fun c : tfield * option tfield => low (f_name (fst c))) conv ++ map (fun f => low (f_name f)) fos) ->
  exists m', match_loop tin (map Some fos) m conv ch = Some (m', conv ++ map (pairing tin) fos, ch || existsb (changed tin) fos) /\
    map snd m' = ids (length (conv ++ map (pairing tin) fos)).
Proof.
  induction fos as [|fo fos IH]; intros m conv ch H1 H2 ND.
  - exists m. cbn. rewrite app_nil_r, orb_false_r. split; [reflexivity|exact H2].
  - cbn [map match_loop]. cbn [mspec].
    assert (P : position m (f_name fo) = None).
    { apply position_fresh. rewrite H1. cbn [map] in ND. apply NoDup_remove_2 in ND. intros X. apply ND. apply in_or_app. left. exact X. }
    rewrite P. fold (changed tin fo). fold (pairing tin fo).
    destruct (IH (m ++ [(f_name fo, Z.of_nat (length conv) + 1)]) (conv ++ [pairing tin fo]) (ch || changed tin fo)) as (m' & A & B).
    + rewrite !map_app, H1. reflexivity.
    + rewrite map_app, H2, app_length. unfold ids. cbn [length map snd]. rewrite Nat.add_1_r, seq_S, map_app. reflexivity.
    + rewrite map_app. cbn [map] in *. rewrite <- app_assoc. exact ND.
    + exists m'. rewrite <- app_assoc in A, B. cbn [app] in A, B. split; [|exact B]. rewrite A. cbn [existsb]. rewrite orb_assoc. reflexivity.
Qed.
Lemma flat_seq {A} (l : list A) : forall a, flat_map (fun i => match nth_error (a ++ l) i with Some c => [c] | None => [] end) (seq (length a) (length l)) = l.
Proof.
  induction l as [|x l IH]; intros a; [reflexivity|]. cbn [length seq flat_map].
  rewrite nth_error_app2, Nat.sub_diag by lia. cbn [nth_error app]. f_equal.
  specialize (IH (a ++ [x])). rewrite <- app_assoc, app_length, Nat.add_1_r in IH. exact IH.
Qed.
Lemma pick_all (conv : list (tfield * option tfield)) m : map snd m = ids (length conv) ->
  flat_map (fun e : list Z * Z => match nth_error conv (Z.to_nat (snd e - 1)) with Some c => [c] | None => [] end) m = conv.
Proof.
  intros H.
  assert (E : forall (m : list (list Z * Z)) is, map snd m = map (fun i => Z.of_nat i + 1) is ->
    flat_map (fun e : list Z * Z => match nth_error conv (Z.to_nat (snd e - 1)) with Some c => [c] | None => [] end) m =
    flat_map (fun i => match nth_error conv i with Some c => [c] | None => [] end) is).
  { induction m0 as [|e m0 IH]; intros [|i is] X; cbn in X; try discriminate; [reflexivity|].
    injection X as X1 X2. cbn [flat_map]. rewrite (IH is X2), X1. replace (Z.to_nat (Z.of_nat i + 1 - 1)) with i by lia. reflexivity. }
  rewrite (E m (seq 0 (length conv)) H). apply (flat_seq conv []).
Qed.
Lemma all_some {A} (l : list (option A)) : (forall x, In x l -> exists y, x = Some y) -> exists ys, l = map Some ys.
Proof.
  induction l as [|x l IH]; intros H; [exists []; reflexivity|].
  destruct (H x (or_introl eq_refl)) as (y & ->). destruct IH as (ys & ->); [intros z Hz; apply H; right; exact Hz|].
  exists (y :: ys). reflexivity.
Qed.
Lemma fop_nth {A} (R : A -> A -> Prop) l : (forall i j a b, (i < j)%nat -> nth_error l i = Some a -> nth_error l j = Some b -> R a b) -> ForallOrdPairs R l.
Proof.
  induction l as [|x l IH]; intros H; [constructor|]. constructor.
  - apply Forall_forall. intros y Hy. apply In_nth_error in Hy. destruct Hy as (j & Hj). apply (H 0%nat (S j)); [lia|reflexivity|exact Hj].
  - apply IH. intros i j a b L A1 A2. apply (H (S i) (S j)); [lia|exact A1|exact A2].
Qed.

Lemma out_fields ds t : tinv ds t -> exists fos, map (field_at t) (seq 0 (length (t_fields t))) = map Some fos /\
  length fos = length (t_fields t) /\ forall i, nth_error fos i = field_at t i.
Proof.
  intros I.
  destruct (all_some (map (field_at t) (seq 0 (length (t_fields t))))) as (fos & E).
  { intros x Hx. apply in_map_iff in Hx. destruct Hx as (i & <- & Hi). apply in_seq in Hi. unfold field_at.
    destruct (nth_error (t_fields t) i) as [[k p]|] eqn:N; [|apply nth_error_None in N; lia].
    destruct (tinv_at _ _ _ _ _ I N) as (y & _ & _ & Y). rewrite Y. eexists. reflexivity. }
  assert (L : length fos = length (t_fields t)).
  { rewrite <- (map_length Some fos), <- E, map_length, seq_length. reflexivity. }
  exists fos. split; [exact E|]. split; [exact L|]. intros i.
  destruct (Nat.lt_ge_cases i (length fos)) as [H|H].
  - assert (N : nth_error (map (field_at t) (seq 0 (length (t_fields t)))) i = Some (field_at t i)).
    { rewrite (map_nth_error (field_at t) i (seq 0 (length (t_fields t))) (d := i)); [reflexivity|].
      rewrite (nth_error_nth' _ 0%nat) by (rewrite seq_length; lia). rewrite seq_nth by lia. reflexivity. }
    rewrite E in N. destruct (nth_error fos i) as [f|] eqn:F; [|apply nth_error_None in F; lia].
    rewrite (map_nth_error Some i fos F) in N. congruence.
  - transitivity (@None tfield); [apply nth_error_None; lia|]. unfold field_at.
    destruct (nth_error (t_fields t) i) eqn:N; [|reflexivity]. assert (nth_error (t_fields t) i <> None) by congruence.
    apply nth_error_Some in H0. lia.
Qed.

Lemma layout_length ds t : tinv ds t -> length (t_fields t) = length (layout ds).
Proof. intros [_ _ M]. apply Permutation_length in M. rewrite !map_length in M. exact M. Qed.

Lemma shows_like f x : shows f x -> like f (fst x).
Proof. intros (A & B & C & _). repeat split; assumption. Qed.
Lemma make_name d o : (length (df_name d) < 32)%nat -> f_name (make_unit d o) = df_name d.
Proof. intros H. unfold make_unit. cbn [f_name]. apply firstn_all2. lia. Qed.

Lemma zeros_at n off m : (off + m <= n)%nat -> zero_at (repeat 0 n) off m.
Proof.
  intros H. unfold zero_at. apply list_nth_eq; [rewrite bytes_at_length, repeat_length by (rewrite repeat_length; lia); reflexivity|].
  intros i Hi. rewrite bytes_at_length in Hi by (rewrite repeat_length; lia). rewrite nth_bytes_at by lia. rewrite !nth_repeat. reflexivity.
Qed.

Section Conv2.
Variables (idate mktime : Z -> Z).
Variable fconv : tfield -> tfield -> list Z -> Z.
Lemma convert_record_spec dsi dso tin tout inr :
  tinv dsi tin -> tinv dso tout -> total dsi <= 65536 -> total dso <= 65536 ->
  plain_target dso -> differ dsi dso \/ aligned dsi dso -> Z.of_nat (length inr) = t_size tin ->
  exists out, convert_record idate mktime fconv tin tout inr = Some out /\ Z.of_nat (length out) = t_size tout /\ carried dsi dso inr out.
Proof.
  intros Ii Io Ti To PT DA Li.
  destruct (out_fields _ _ Io) as (fos & F1 & F2 & F3).
  assert (NM : forall i f, nth_error fos i = Some f -> exists x, In x (layout dso) /\ f = make_unit (fst x) (snd x) /\ shows f x /\ f_name f = df_name (fst x)).
  { intros i f Hf. rewrite F3 in Hf. destruct (field_at_place _ _ _ _ Io To Hf) as ([d o] & k & p & A & B & _ & _ & E).
    exists (d, o). split; [exact A|]. split; [exact E|]. split; [exact B|]. rewrite E. apply make_name. apply (PT d o A). }
  assert (ND : NoDup (map (fun f => low (f_name f)) fos)).
  { apply NoDup_nth_error. intros i j Hi E. rewrite map_length in Hi.
    destruct (nth_error fos i) as [f|] eqn:Ef; [|apply nth_error_None in Ef; lia].
    rewrite (map_nth_error _ _ _ Ef) in E.
    destruct (nth_error fos j) as [g|] eqn:Eg.
    2:{ exfalso. assert (X : nth_error (map (fun f => low (f_name f)) fos) j = None) by (apply nth_error_None; rewrite map_length; apply nth_error_None; exact Eg). congruence. }
    rewrite (map_nth_error _ _ _ Eg) in E. injection E as E.
    destruct (Nat.eq_dec i j) as [|N]; [assumption|exfalso].
    destruct (NM _ _ Ef) as (x & _ & _ & _ & Nx). destruct (NM _ _ Eg) as (y & _ & _ & _ & Ny).
    rewrite F3 in Ef, Eg.
    destruct (field_at_place _ _ _ _ Io To Ef) as (x' & k & p & X1 & X2 & X3 & X4 & X5).
    destruct (field_at_place _ _ _ _ Io To Eg) as (y' & k' & p' & Y1 & Y2 & Y3 & Y4 & Y5).
    apply (nth_names (fun e => low (fst e)) _ _ _ _ _ (tinv_names _ _ Io) X3 Y3 N). cbn [fst].
    rewrite <- X4, <- Y4. destruct x' as [dx ox], y' as [dy oy]. cbn [fst snd] in *.
    rewrite X5, Y5 in E. rewrite !make_name in E by (eapply PT; eassumption). exact E. }
  destruct (match_loop_spec tin fos [] [] (negb (t_size tout =? t_size tin) || negb (Nat.eqb (length (t_fields tout)) (length (t_fields tin)))) eq_refl eq_refl ND) as (m' & M1 & M2).
  unfold convert_record, dmatch. rewrite F1, M1. cbn [app] in M1, M2 |- *.
  (* a place of the target and its field *)
  assert (PL : forall d' o', In (d', o') (layout dso) -> exists i f, nth_error fos i = Some f /\ f = make_unit d' o' /\ shows f (d', o') /\ f_name f = df_name d').
  { intros d' o' H. destruct (tinv_place _ _ _ Io H) as (i & k & p & A & B & C). cbn [fst snd] in C.
    exists i, (make_unit d' o'). split; [rewrite F3; unfold field_at; rewrite A; exact C|]. split; [reflexivity|].
    split; [apply (make_shows dso); assumption|]. apply make_name. apply (PT d' o' H). }
  destruct (negb (t_size tout =? t_size tin) || _ || existsb (changed tin) fos) eqn:CH.
  - (* by fields *)
    rewrite (pick_all _ _ M2).
    set (z := repeat 0 (Z.to_nat (t_size tout))). assert (Lz : length z = Z.to_nat (t_size tout)) by apply repeat_length.
    assert (OK : Forall (pair_ok inr z) (map (pairing tin) fos)).
    { apply Forall_forall. intros c Hc. apply in_map_iff in Hc. destruct Hc as (fo & <- & Hfo). apply In_nth_error in Hfo. destruct Hfo as (i & Hi).
      destruct (NM _ _ Hi) as ([d' o'] & A & B & C & D). rewrite F3 in Hi.
      pose proof (fields_inside _ _ _ _ Io To Hi) as IN. unfold range in IN. cbn [fst snd] in IN.
      unfold pair_ok, pairing. cbn [fst snd].
      split; [exists d'; apply (shows_like _ _ C)|]. split.
      { intros R. destruct (PT d' o' A) as (_ & X). destruct C as (S1 & S2 & _). cbn [fst] in *. rewrite S1 in R. specialize (X R). lia. }
      split; [rewrite Lz; exact IN|]. split; [apply zeros_at; exact IN|].
      destruct (field_named tin (f_name fo)) as [fi|] eqn:FN; [|exact I].
      destruct (proj2 (proj2 (field_named_spec dsi tin (f_name fo) Ii)) fi FN) as ([d o] & X1 & X2 & X3). cbn [fst snd] in X3.
      pose proof (make_shows dsi d o X1 Ti) as SH. rewrite <- X3 in SH. split; [exists d; apply (shows_like _ _ SH)|].
      destruct (shows_range _ _ _ SH X1) as (R & _). destruct (places_in _ _ _ _ X1) as (_ & _ & _ & Y).
      destruct SH as (_ & _ & _ & O & _). cbn [fst snd] in *. destruct Ii as [Sz _ _]. lia. }
    assert (AP : ForallOrdPairs pair_apart (map (pairing tin) fos)).
    { apply fop_nth. intros i j a b L Ha Hb.
      assert (X : forall i a, nth_error (map (pairing tin) fos) i = Some a -> exists f, nth_error fos i = Some f /\ fst a = f).
      { intros i0 a0 H0. rewrite nth_error_map in H0. destruct (nth_error fos i0) as [f|]; [|discriminate]. injection H0 as <-. exists f. split; reflexivity. }
      destruct (X _ _ Ha) as (f & Hf & Ef). destruct (X _ _ Hb) as (g & Hg & Eg). unfold pair_apart. rewrite Ef, Eg.
      rewrite F3 in Hf, Hg. apply (fields_apart dso tout i j); try assumption. lia. }
    destruct (owner_spec idate mktime fconv inr _ z OK AP) as (out & A & B & _ & D).
    exists out. split; [exact A|]. split.
    { rewrite B, Lz. destruct Io as [Sz _ _]. pose proof (total_pos dso). lia. }
    rewrite Forall_forall in D.
    intros d' o' H. destruct (PL d' o' H) as (i & fo & H1 & H2 & H3 & H4).
    pose proof (D (pairing tin fo) (in_map _ _ _ (nth_error_In _ _ H1))) as DO. unfold done_one, pairing in DO. cbn [fst snd] in DO.
    pose proof (shows_like _ _ H3) as LK. destruct H3 as (S1 & S2 & S3 & S4 & _). cbn [fst snd] in *.
    assert (EO : Z.to_nat o' = f_off fo) by lia. assert (EL : Z.to_nat (df_len d') = f_len fo) by lia. assert (EC : Z.to_nat (df_count d') = f_count fo) by lia.
    rewrite EO, EL, EC. split.
    + intros d o Hd SN i0 Hi0. apply same_name_lower in SN.
      pose proof (proj1 (field_named_spec dsi tin (f_name fo) Ii) (d, o) Hd) as FN. cbn [fst snd] in FN. rewrite H4 in FN. specialize (FN SN).
      rewrite H4 in DO. rewrite FN in DO. pose proof (make_shows dsi d o Hd Ti) as SH.
      specialize (DO d d' LK (shows_like _ _ SH) i0 Hi0). destruct SH as (U1 & U2 & U3 & U4 & _). cbn [fst snd] in *.
      replace (Z.to_nat (df_count d)) with (f_count (make_unit d o)) by lia.
      replace (Z.to_nat (df_len d)) with (f_len (make_unit d o)) by lia.
      replace (Z.to_nat o) with (f_off (make_unit d o)) by lia. exact DO.
    + intros NONE i0 Hi0.
      assert (FN : field_named tin (f_name fo) = None).
      { apply (field_named_spec dsi tin (f_name fo) Ii). intros [d o] Hx. cbn [fst]. rewrite H4. intros E.
        assert (same_name (df_name d) (df_name d') = true) by (apply same_name_lower; exact E). rewrite (NONE d o Hx) in H0. discriminate. }
      rewrite FN in DO. apply (DO d' d' LK i0 Hi0).
  - (* the plain copy *)
    apply orb_false_iff in CH. destruct CH as [CH CH3]. apply orb_false_iff in CH. destruct CH as [CH1 CH2].
    rewrite (layout_length _ _ Ii), (layout_length _ _ Io) in CH2.
    assert (Sz : t_size tout = t_size tin) by lia.
    assert (CF : forall d o d' o', In (d, o) (layout dsi) -> In (d', o') (layout dso) -> same_name (df_name d) (df_name d') = true ->
      df_style d = df_style d' /\ df_len d = df_len d' /\ df_count d = df_count d').
    { intros d o d' o' Hd Hd' SN. apply same_name_lower in SN. destruct (PL d' o' Hd') as (i & fo & H1 & H2 & H3 & H4).
      pose proof (proj1 (field_named_spec dsi tin (f_name fo) Ii) (d, o) Hd) as FN. cbn [fst snd] in FN. rewrite H4 in FN. specialize (FN SN).
      pose proof (make_shows dsi d o Hd Ti) as SH. destruct SH as (U1 & U2 & U3 & _). destruct H3 as (S1 & S2 & S3 & _). cbn [fst snd] in *.
      assert (NC : changed tin fo = false).
      { destruct (changed tin fo) eqn:E; [|reflexivity]. assert (X : existsb (changed tin) fos = true); [|congruence].
        apply existsb_exists. exists fo. split; [apply (nth_error_In _ _ H1)|exact E]. }
      unfold changed in NC. rewrite H4, FN in NC. lia. }
    destruct Ii as [Zi _ _], Io as [Zo _ _].
    destruct DA as [DA|AL].
    { exfalso. destruct DA as [DA|[DA|(d & o & d' & o' & A & B & C & D)]]; [lia|lia|].
      destruct (CF d o d' o' A B C) as (X & Y & Z0). lia. }
    replace (firstn (Z.to_nat (t_size tout)) inr) with inr by (symmetry; apply firstn_all2; lia).
    exists inr. split; [reflexivity|]. split; [lia|].
    intros d' o' H. destruct (AL d' o' H) as (d0 & A0 & B0). split.
    + intros d o Hd SN i Hi. destruct (CF d o d' o' Hd H SN) as (X & Y & Z0).
      replace (i <? Z.to_nat (df_count d))%nat with true by lia. unfold kept. cbv zeta.
      replace ((df_style d =? df_style d') && (df_len d =? df_len d')) with true by lia.
      assert (E : (d, o) = (d0, o')).
      { apply (layout_unique dsi); [exact Hd|exact A0|]. cbn [fst]. apply same_name_lower in SN, B0. unfold low. congruence. }
      injection E as -> ->. rewrite Y. reflexivity.
    + intros NONE. specialize (NONE d0 o' A0). congruence.
Qed.
End Conv2.
