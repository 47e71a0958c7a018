(** Lemmas on the JSON model. *)
From Coq Require Import ZArith List Lia Bool ZifyBool ZifyNat.
From Verif Require Import Base S_json M_netmsg L_netmsg M_json.
Import ListNotations.
Open Scope Z_scope.

(** ** termination *)
Lemma skip_len : forall p, (length (skip p) <= length p)%nat.
Proof. induction p as [|c p IH]; cbn [skip length]; [lia|]. destruct (c <=? 32); cbn [length]; lia. Qed.

Lemma scan_str_app : forall p ago, p = fst (scan_str ago p) ++ snd (scan_str ago p).
Proof.
  induction p as [|c p IH]; intros ago; cbn [scan_str]; [reflexivity|].
  destruct (negb (c =? 34) || (ago =? 92)); [|reflexivity].
  cbn [fst snd app]. f_equal. apply IH.
Qed.

Lemma to_colon_len : forall p, (length (to_colon p) <= length p)%nat.
Proof. induction p as [|c p IH]; cbn [to_colon length]; [lia|]. destruct ((c =? 58) || (c =? 44)); cbn [length]; lia. Qed.

Lemma scan_info_app : forall p, p = fst (scan_info p) ++ snd (scan_info p).
Proof.
  induction p as [|c p IH]; cbn [scan_info]; [reflexivity|].
  destruct ((c =? 44) || (c =? 32)); [reflexivity|]. cbn [fst snd app]. f_equal. exact IH.
Qed.

Lemma scan_num_app : forall p, p = fst (fst (scan_num p)) ++ snd (fst (scan_num p)).
Proof.
  induction p as [|c p IH]; cbn [scan_num]; [reflexivity|].
  destruct (num_char c); [|reflexivity].
  destruct (scan_num p) as [[s r] f]. cbn [fst snd app] in *. f_equal. exact IH.
Qed.

Definition goes (pv : bool -> jnode -> option (list Z) -> pres) (m : nat) : Prop :=
  forall err n p, (length p < m)%nat ->
    exists q e n', pv err n (Some p) = POk q e n' /\ (forall r, q = Some r -> (length r < length p)%nat).

Lemma kid_loop_goes : forall arr pv m, goes pv m ->
  forall fuel idx err ty key val done child p, (length p < fuel)%nat -> (length p < m)%nat ->
    exists q e n', kid_loop pv arr fuel idx err ty key val done child p = POk q e n' /\
                   (forall r, q = Some r -> (length r < length p)%nat).
Proof.
  intros arr pv m G. induction fuel as [|f IH]; intros idx err ty key val done child p Hf Hm; [lia|].
  cbn [kid_loop]. destruct p as [|c0 p0].
  { eexists _, _, _. split; [reflexivity|]. intros r E. discriminate. }
  set (P := c0 :: p0) in *. set (ch := if arr then set_key child (lldtoa idx) else child).
  pose proof (skip_len P) as SL.
  destruct (G err ch (skip P) ltac:(lia)) as (q & e & n' & E & Q). rewrite E.
  destruct q as [q|]; cbn [skip_p option_map].
  2:{ eexists _, _, _. split; [reflexivity|]. intros r X. discriminate. }
  specialize (Q q eq_refl). pose proof (skip_len q) as SQ.
  destruct (skip q) as [|c r].
  { eexists _, _, _. split; [reflexivity|]. intros r X. discriminate. }
  cbn [length] in SQ.
  destruct (c =? (if arr then 93 else 125)).
  { eexists _, _, _. split; [reflexivity|]. intros r' X. injection X as <-. lia. }
  destruct (c =? 44).
  - destruct (IH (idx + 1) e ty key val (done ++ [n']) new_node r ltac:(lia) ltac:(lia)) as (a & b & d & A & B).
    exists a, b, d. split; [exact A|]. intros r' X. specialize (B r' X). lia.
  - assert (H1 : (length (c :: r) < f)%nat) by (cbn [length]; lia).
    assert (H2 : (length (c :: r) < m)%nat) by (cbn [length]; lia).
    destruct (IH (idx + 1) e ty key val done n' (c :: r) H1 H2) as (a & b & d & A & B).
    exists a, b, d. split; [exact A|]. intros r' X. specialize (B r' X). cbn [length] in B. lia.
Qed.

Lemma parse_kids_goes : forall arr pv m err n p, goes pv m -> (length p < m)%nat ->
  exists q e n', parse_kids pv arr err n p = POk q e n' /\ (forall r, q = Some r -> (length r <= length p)%nat).
Proof.
  intros arr pv m err n p G Hm. destruct n as [ty k v kids]. cbn [parse_kids].
  pose proof (skip_len p) as SL.
  destruct (kid_loop_goes arr pv m G (S (length (skip p))) 0 err (if arr then 6 else 7) k v [] new_node (skip p)
              ltac:(lia) ltac:(lia)) as (a & b & d & A & B).
  destruct (skip p) as [|c r] eqn:E.
  - exists a, b, d. split; [exact A|]. intros r X. specialize (B r X). cbn [length] in B. lia.
  - destruct (c =? (if arr then 93 else 125)).
    + eexists _, _, _. split; [reflexivity|]. intros r' X. injection X as <-. cbn [length] in SL. lia.
    + exists a, b, d. split; [exact A|]. intros r' X. specialize (B r' X). lia.
Qed.

Lemma starts_first : forall c t w, starts_ci (c :: t) w = true -> w <> [] -> lower c = lower (hd 0 w).
Proof. intros c t [|d w] H N; [easy|]. cbn [starts_ci hd] in *. lia. Qed.

Lemma parse_info_goes : forall ty err n c t, c <> 44 -> c <> 32 ->
  exists q e n', parse_info ty err n (c :: t) = POk q e n' /\
                 (forall r, q = Some r -> (length r < length (c :: t))%nat).
Proof.
  intros ty err n c t H1 H2. unfold parse_info. destruct n as [ty0 k v kids].
  pose proof (scan_info_app t) as A. cbn [scan_info].
  replace ((c =? 44) || (c =? 32)) with false by lia. cbn [fst snd].
  destruct (scan_info t) as [s r]. cbn [fst snd] in *.
  eexists _, _, _. split; [reflexivity|]. intros r' X. injection X as <-.
  rewrite A. cbn [length]. rewrite app_length. lia.
Qed.

Theorem parse_goes : forall d, goes (parse_value d) d.
Proof.
  induction d as [|d IH]; [intros err n p H; lia|].
  intros err n p H. cbn [parse_value]. unfold value_body.
  destruct p as [|c t].
  { eexists _, _, _. split; [reflexivity|]. intros r X. discriminate. }
  cbn [length] in H.
  destruct (c =? 34).
  { unfold parse_string. pose proof (scan_str_app t 34) as A. destruct (scan_str 34 t) as [s rest]. cbn [fst snd] in A.
    destruct rest as [|c' r].
    { eexists _, _, _. split; [reflexivity|]. intros r X. discriminate. }
    assert (LR : (length r < length t)%nat) by (rewrite A, app_length; cbn [length]; lia).
    destruct n as [ty [k|] v kids].
    { eexists _, _, _. split; [reflexivity|]. intros r' X. injection X as <-. cbn [length]. lia. }
    pose proof (to_colon_len r) as TL. destruct (to_colon r) as [|c2 r2].
    { eexists _, _, _. split; [reflexivity|]. intros r' X. discriminate. }
    cbn [length] in TL. destruct (c2 =? 58).
    - pose proof (skip_len r2) as SL.
      destruct (IH err (JN ty (Some (strdup t (length s))) v kids) (skip r2) ltac:(lia)) as (q & e & n' & E & Q).
      rewrite E. eexists _, _, _. split; [reflexivity|]. intros r' X. destruct q as [q|]; [|discriminate].
      injection X as <-. specialize (Q q eq_refl). pose proof (skip_len q). cbn [length]. lia.
    - eexists _, _, _. split; [reflexivity|]. intros r' X. injection X as <-. cbn [length]. lia. }
  destruct ((c =? 45) || ((48 <=? c) && (c <=? 57))) eqn:N.
  { unfold parse_number. pose proof (scan_num_app t) as A. cbn [scan_num].
    replace (num_char c) with true by (unfold num_char; lia).
    destruct (scan_num t) as [[s r] f]. cbn [fst snd] in A. destruct n as [ty k v kids].
    eexists _, _, _. split; [reflexivity|]. intros r' X. injection X as <-.
    rewrite A. cbn [length]. rewrite app_length. lia. }
  destruct (c =? 91).
  { destruct (parse_kids_goes true _ d err n t IH ltac:(lia)) as (q & e & n' & E & Q).
    exists q, e, n'. split; [exact E|]. intros r X. specialize (Q r X). cbn [length]. lia. }
  destruct (c =? 123).
  { destruct (parse_kids_goes false _ d err n t IH ltac:(lia)) as (q & e & n' & E & Q).
    exists q, e, n'. split; [exact E|]. intros r X. specialize (Q r X). cbn [length]. lia. }
  assert (L44 : lower 44 = 44) by reflexivity. assert (L32 : lower 32 = 32) by reflexivity.
  destruct (starts_ci (c :: t) [102; 97; 108; 115; 101] || starts_ci (c :: t) [116; 114; 117; 101]) eqn:W.
  { assert (W' : lower c = 102 \/ lower c = 116).
    { apply orb_true_iff in W as [W|W]; apply starts_first in W; try discriminate; cbn [hd] in W;
        rewrite W; [left|right]; reflexivity. }
    apply parse_info_goes; intros ->; destruct W'; discriminate. }
  destruct (starts_ci (c :: t) [110; 97; 110]) eqn:W2.
  { apply starts_first in W2; [|discriminate]. cbn [hd] in W2. change (lower 110) with 110 in W2.
    apply parse_info_goes; intros ->; discriminate. }
  eexists _, _, _. split; [reflexivity|]. intros r X. discriminate.
Qed.

(** nested arrays use the stack up *)
Lemma nested_deep : forall d m err n, (d <= m)%nat -> parse_value d err n (Some (repeat 91 (S m))) = PDeep.
Proof.
  induction d as [|d IH]; intros m err n H; [reflexivity|].
  destruct m as [|m]; [lia|].
  cbn [repeat parse_value]. unfold value_body.
  change (91 =? 34) with false. change ((91 =? 45) || ((48 <=? 91) && (91 <=? 57))) with false.
  change (91 =? 91) with true. cbv iota.
  destruct n as [ty k v kids]. cbn [parse_kids skip].
  change (91 <=? 32) with false. cbv iota. change (91 =? 93) with false. cbv iota.
  cbn [length]. cbn [kid_loop]. cbn [skip]. change (91 <=? 32) with false. cbv iota.
  change (91 :: repeat 91 m) with (repeat 91 (S m)). rewrite IH by lia. reflexivity.
Qed.

(** ** reading a text of the grammar *)
Lemma skip_ws : forall w p, ws w -> skip (w ++ p) = skip p.
Proof.
  induction w as [|c w IH]; intros p H; [reflexivity|]. inversion H; subst.
  cbn [app skip]. replace (c <=? 32) with true by (unfold blank in *; lia). apply IH. assumption.
Qed.
Lemma skip_id : forall c p, 32 < c -> skip (c :: p) = c :: p.
Proof. intros c p H. cbn [skip]. replace (c <=? 32) with false by lia. reflexivity. Qed.

Lemma kid_loop_skip : forall pv arr fuel idx err ty key val done child p q, skip p = skip q -> skip q <> [] ->
  kid_loop pv arr fuel idx err ty key val done child p = kid_loop pv arr fuel idx err ty key val done child q.
Proof.
  intros pv arr fuel idx err ty key val done child p q E N. destruct fuel as [|f]; [reflexivity|].
  cbn [kid_loop]. destruct p as [|a p]; [cbn [skip] in E; congruence|]. destruct q as [|b q]; [cbn [skip] in N; congruence|].
  rewrite E. reflexivity.
Qed.

(** strings *)
Lemma scan_lex : forall s t, strlex false s t -> forall ago rest, ago <> 92 ->
  scan_str ago (t ++ 34 :: rest) = (t, 34 :: rest).
Proof.
  induction 1 as [|c s t P H IH|s t H IH|c e s t L]; intros ago rest A.
  - cbn [app scan_str]. replace (ago =? 92) with false by lia. reflexivity.
  - destruct P as (P1 & P2 & P3). cbn [app scan_str]. replace (c =? 34) with false by lia. cbn [negb orb].
    rewrite IH by assumption. reflexivity.
  - cbn [app scan_str]. change (92 =? 34) with false. cbn [negb orb]. change (34 =? 34) with true.
    change (92 =? 92) with true. cbn [negb orb]. rewrite IH by lia. reflexivity.
  - discriminate.
Qed.
Lemma unesc_lex : forall s t, strlex false s t -> unesc t = s.
Proof.
  induction 1 as [|c s t P H IH|s t H IH|c e s t L].
  - reflexivity.
  - destruct P as (P1 & P2 & P3). cbn [unesc]. destruct t as [|d t].
    + cbn [unesc] in IH. rewrite <- IH. reflexivity.
    + replace (c =? 92) with false by lia. cbn [andb]. rewrite IH. reflexivity.
  - cbn [unesc]. change ((92 =? 92) && (34 =? 34)) with true. cbv iota. rewrite IH. reflexivity.
  - discriminate.
Qed.
Lemma lex_plain : forall s t, strlex false s t -> ~ In 92 t -> s = t.
Proof.
  induction 1 as [|c s t P H IH|s t H IH|c e s t L]; intros N.
  - reflexivity.
  - f_equal. apply IH. intros X. apply N. right. exact X.
  - exfalso. apply N. left. reflexivity.
  - discriminate.
Qed.

(** numbers *)
Definition stopc (rest : list Z) : Prop := num_char (hd 0 rest) = false.
Lemma frac_cons : forall c s, frac (c :: s) <-> (c = 46 /\ s <> [] /\ digit (hd 0 s)) \/ frac s.
Proof.
  intros c s. split.
  - intros (a & d & b & E & D). destruct a as [|x a].
    + cbn [app] in E. injection E as -> ->. left. split; [reflexivity|]. split; [discriminate|exact D].
    + cbn [app] in E. injection E as -> ->. right. exists a, d, b. split; [reflexivity|exact D].
  - intros [(-> & N & D)|(a & d & b & -> & D)].
    + destruct s as [|x s]; [easy|]. exists [], x, s. split; [reflexivity|exact D].
    + exists (c :: a), d, b. split; [reflexivity|exact D].
Qed.
Lemma frac_nil : ~ frac [].
Proof. intros (a & d & b & E & _). destruct a; discriminate. Qed.

Lemma scan_num_lex : forall s rest, Forall (fun c => num_char c = true) s -> stopc rest ->
  exists f, scan_num (s ++ rest) = (s, rest, f) /\ (f = true <-> frac s).
Proof.
  intros s rest F ST. induction F as [|c s Hc F IH].
  - exists false. split; [|split; [discriminate|intros H; destruct (frac_nil H)]].
    destruct rest as [|c r]; [reflexivity|]. unfold stopc in ST. cbn [hd] in ST.
    cbn [app scan_num]. rewrite ST. reflexivity.
  - destruct IH as (f & E & Q). cbn [app scan_num]. rewrite Hc, E.
    eexists. split; [reflexivity|]. rewrite frac_cons, <- Q.
    destruct s as [|d s].
    + cbn [app]. unfold stopc, num_char in ST.
      assert (X : (48 <=? hd 0 rest) && (hd 0 rest <=? 57) = false) by lia.
      rewrite <- andb_assoc, X, andb_false_r. cbn [orb]. split; [intros ->; right; reflexivity|].
      intros [(_ & N & _)|G]; [easy|exact G].
    + cbn [app hd]. unfold digit. rewrite orb_true_iff, !andb_true_iff, Z.eqb_eq, !Z.leb_le.
      split.
      * intros [((A & B) & C)|G]; [left; repeat split; try assumption; discriminate|right; exact G].
      * intros [(A & _ & B & C)|G]; [left; auto|right; exact G].
Qed.

Lemma digits_num : forall s, Forall digit s -> Forall (fun c => num_char c = true) s.
Proof. intros s H. eapply Forall_impl; [|exact H]. intros c D. unfold digit, num_char in *. lia. Qed.

Lemma numlex_chars : forall s, numlex false s ->
  Forall (fun c => num_char c = true) s /\ s <> [] /\ (hd 0 s = 45 \/ digit (hd 0 s)).
Proof.
  intros s ((sg & i & f & e & -> & Sg & I & F & E) & X). specialize (X eq_refl). destruct X as [X1 X2].
  assert (Di : Forall digit i /\ i <> []).
  { destruct I as [->|[[N D] _]]; [|split; assumption]. split; [|discriminate]. repeat constructor; lia. }
  destruct Di as [Di Ni].
  assert (Fs : Forall (fun c => num_char c = true) sg).
  { destruct Sg as [->| ->]; repeat constructor. }
  assert (Ff : Forall (fun c => num_char c = true) f).
  { destruct F as [->|(d & -> & _ & D)]; [constructor|]. constructor; [reflexivity|]. apply digits_num. exact D. }
  assert (Fe : Forall (fun c => num_char c = true) e).
  { destruct E as [->|(c & g & d & -> & C & G & _ & D)]; [constructor|].
    assert (C' : c <> 69). { intros ->. apply X1. rewrite !in_app_iff. right. right. right. left. reflexivity. }
    constructor; [unfold num_char; lia|]. apply Forall_app. split; [|apply digits_num; exact D].
    destruct G as [->|[->| ->]]; [constructor| |repeat constructor].
    exfalso. apply X2. rewrite !in_app_iff. right. right. right. right. left. reflexivity. }
  split; [|split].
  - rewrite !Forall_app. repeat split; try assumption. apply digits_num. exact Di.
  - intros K. apply Ni. apply app_eq_nil in K as [_ K]. apply app_eq_nil in K as [K _]. exact K.
  - destruct Sg as [->| ->]; [|left; reflexivity]. right. cbn [app].
    destruct i as [|x i]; [easy|]. inversion Di; subst. assumption.
Qed.

(** decimal indices *)
Lemma dec_rev : forall fuel v, 0 <= v < 10 ^ Z.of_nat fuel -> 0 < Z.of_nat fuel ->
  is_dec v (rev (lld_loop fuel v)).
Proof.
  induction fuel as [|f IH]; intros v H P; [lia|].
  cbn [lld_loop]. assert (M : 0 <= v mod 10 < 10) by (apply Z.mod_pos_bound; lia).
  destruct (Z.ltb_spec 0 (v / 10)) as [L|L].
  - rewrite Nat2Z.inj_succ, Z.pow_succ_r in H by lia.
    assert (B : 0 <= v / 10 < 10 ^ Z.of_nat f).
    { split; [lia|]. apply Z.div_lt_upper_bound; lia. }
    assert (F0 : 0 < Z.of_nat f).
    { destruct f; [|lia]. change (10 ^ Z.of_nat 0) with 1 in B. lia. }
    destruct (IH (v / 10) B F0) as ((N & D) & V & Z0).
    cbn [rev]. split; [split|split].
    + intros K. apply app_eq_nil in K as [_ K]. discriminate.
    + apply Forall_app. split; [exact D|]. repeat constructor; lia.
    + rewrite fold_left_app, V. cbn [fold_left].
      pose proof (Z.div_mod v 10 ltac:(lia)). lia.
    + right. destruct (rev (lld_loop f (v / 10))) as [|x l] eqn:E; [easy|]. cbn [app hd].
      destruct Z0 as [Z0|Z0]; [|exact Z0]. injection Z0 as -> ->. cbn [fold_left] in V. lia.
  - assert (v / 10 = 0) by (pose proof (Z.div_pos v 10 ltac:(lia) ltac:(lia)); lia).
    cbn [rev app]. pose proof (Z.div_mod v 10 ltac:(lia)) as DM.
    split; [split; [discriminate|repeat constructor; lia]|split].
    + cbn [fold_left]. lia.
    + cbn [hd]. destruct (Z.eq_dec (v mod 10) 0) as [E|E]; [left; rewrite E; reflexivity|right; lia].
Qed.
Lemma lldtoa_dec : forall i, 0 <= i < 2 ^ 31 -> is_dec i (lldtoa i).
Proof.
  intros i H. change (2 ^ 31) with 2147483648 in H. unfold lldtoa. replace (i <? 0) with false by lia.
  apply dec_rev; [|lia]. change (10 ^ Z.of_nat 20) with 100000000000000000000. lia.
Qed.

(** the local recursions of [shaped] *)
Fixpoint arr_shape (i : Z) (l : list jv) (ks : list jnode) : Prop :=
  match l, ks with
  | [], [] => True
  | v :: l', c :: ks' => (exists s, is_dec i s /\ shaped v (Some s) c) /\ arr_shape (i + 1) l' ks'
  | _, _ => False
  end.
Fixpoint obj_shape (l : list (list Z * jv)) (ks : list jnode) : Prop :=
  match l, ks with
  | [], [] => True
  | (k, v) :: l', c :: ks' => shaped v (Some k) c /\ obj_shape l' ks'
  | _, _ => False
  end.
Lemma shaped_arr : forall l k n,
  shaped (JArr l) k n <-> jkey n = k /\ jty n = 6 /\ jval n = None /\ arr_shape 0 l (jkids n).
Proof.
  intros l k n. cbn [shaped].
  assert (G : forall l i ks, (fix go (i : Z) (l : list jv) (ks : list jnode) : Prop :=
         match l, ks with
         | [], [] => True
         | v :: l', c :: ks' => (exists s, is_dec i s /\ shaped v (Some s) c) /\ go (i + 1) l' ks'
         | _, _ => False
         end) i l ks <-> arr_shape i l ks).
  { clear. induction l as [|v l IH]; intros i [|c ks]; cbn [arr_shape]; try specialize (IH (i + 1) ks); tauto. }
  specialize (G l 0 (jkids n)). tauto.
Qed.
Lemma shaped_obj : forall l k n,
  shaped (JObj l) k n <-> jkey n = k /\ jty n = 7 /\ jval n = None /\ obj_shape l (jkids n).
Proof.
  intros l k n. cbn [shaped].
  assert (G : forall l ks, (fix go (l : list (list Z * jv)) (ks : list jnode) : Prop :=
         match l, ks with
         | [], [] => True
         | (k, v) :: l', c :: ks' => shaped v (Some k) c /\ go l' ks'
         | _, _ => False
         end) l ks <-> obj_shape l ks).
  { clear. induction l as [|[k v] l IH]; intros [|c ks]; cbn [obj_shape]; try specialize (IH ks); tauto. }
  specialize (G l (jkids n)). tauto.
Qed.

(** the grammar *)
Scheme jtext_m := Minimality for jtext Sort Prop
with item_m := Minimality for item Sort Prop
with elems_m := Minimality for elems Sort Prop
with members_m := Minimality for members Sort Prop.
Combined Scheme json_mutind from jtext_m, item_m, elems_m, members_m.

Definition starter (c : Z) : Prop :=
  c = 34 \/ c = 45 \/ digit c \/ c = 91 \/ c = 123 \/ c = 102 \/ c = 116.
Definition starts (t : list Z) : Prop := exists c t', t = c :: t' /\ starter c.
Lemma starts_app : forall t u, starts t -> starts (t ++ u).
Proof. intros t u (c & t' & -> & H). exists c, (t' ++ u). split; [reflexivity|exact H]. Qed.
Lemma jtext_starts : forall v t, jtext false v t -> starts t.
Proof.
  unfold starts, starter. intros v t H. inversion H; subst; try discriminate.
  - match goal with X : numlex _ _ |- _ => destruct (numlex_chars _ X) as (_ & N & A) end.
    destruct t as [|c t']; [easy|]. cbn [hd] in A. exists c, t'. split; [reflexivity|]. tauto.
  - eexists _, _. split; [reflexivity|]. tauto.
  - eexists _, _. split; [reflexivity|]. tauto.
  - eexists _, _. split; [reflexivity|]. tauto.
  - eexists _, _. split; [reflexivity|]. tauto.
  - eexists _, _. split; [reflexivity|]. tauto.
Qed.
Lemma word_starts : forall b, starts (word b).
Proof. intros []; eexists _, _; (split; [reflexivity|]); unfold starter; tauto. Qed.
Lemma item_starts : forall l v i, item false l v i -> starts i.
Proof.
  intros l v i H. inversion H; subst; try discriminate.
  - apply starts_app. eapply jtext_starts. eassumption.
  - apply starts_app, word_starts.
  - apply word_starts.
Qed.
Lemma starts_skip : forall t p, starts t -> skip (t ++ p) = t ++ p.
Proof.
  intros t p (c & t' & -> & H). cbn [app]. apply skip_id. unfold starter, digit in H. lia.
Qed.
