(** Lemmas for dynamic strings (C72). *)
From Coq Require Import ZifyBool ZifyNat.
From Verif Require Import Base S_csv M_csv L_csv S_sds M_sds.

Lemma pow_consts : 2 ^ 60 = 1152921504606846976 /\ 2 ^ 62 = 4611686018427387904 /\ 2 ^ 63 = 9223372036854775808 /\ 2 ^ 64 = 18446744073709551616
  /\ 2 ^ 5 = 32 /\ 2 ^ 8 = 256 /\ 2 ^ 16 = 65536 /\ 2 ^ 32 = 4294967296.
Proof. repeat (split; [reflexivity|]). reflexivity. Qed.
Ltac pows := pose proof pow_consts as (P60 & P62 & P63 & P64 & P5 & P8 & P16 & P32); unfold small in *; rewrite ?P60, ?P62, ?P63, ?P64, ?P5, ?P8, ?P16, ?P32 in *.

Definition inv (s : sds) (c : list Z) (x : Z) : Prop :=
  0 <= s_ty s <= 4 /\ s_len s = len c /\ len c < 2 ^ bits (s_ty s) /\
  (s_ty s <> 0 -> len c <= s_alloc s /\ s_alloc s < 2 ^ bits (s_ty s) /\ len (s_buf s) = s_alloc s + 1) /\
  exists rest, s_buf s = c ++ x :: rest.

Lemma bits_64 : forall t, 0 <= t <= 4 -> 32 <= 2 ^ bits t <= 18446744073709551616 /\ (t = 3 -> 2 ^ bits t = 4294967296).
Proof.
  intros t H. assert (C : t = 0 \/ t = 1 \/ t = 2 \/ t = 3 \/ t = 4) by lia.
  destruct C as [-> | [-> | [-> | [-> | ->]]]]; (split; [vm_compute; split; discriminate|vm_compute; intros; congruence]).
Qed.
Lemma req_ok : forall n, 0 <= n < 2 ^ 64 -> 0 <= req_type n <= 4 /\ n < 2 ^ bits (req_type n).
Proof.
  intros n H. pows. unfold req_type. rewrite P5, P8, P16, P32. split.
  - destruct (n <? 32), (n <? 256), (n <? 65536), (n <? 4294967296); lia.
  - destruct (n <? 32) eqn:A; [change (n < 32); lia|]. destruct (n <? 256) eqn:B; [change (n < 256); lia|].
    destruct (n <? 65536) eqn:C; [change (n < 65536); lia|]. destruct (n <? 4294967296) eqn:D; [change (n < 4294967296); lia|].
    change (n < 2 ^ 64). rewrite P64. lia.
Qed.

Lemma fresh_len : forall j n, 0 <= n -> len (fresh j n) = n.
Proof. intros j n H. unfold fresh. rewrite map_length, seq_length. lia. Qed.
Lemma put_ok : forall a m r t, length t = length m -> put (a ++ m ++ r) (len a) t = Some (a ++ t ++ r).
Proof.
  intros a m r t E. unfold put. rewrite !app_length. replace ((0 <=? len a) && (len a + len t <=? Z.of_nat (length a + (length m + length r)))) with true by lia.
  do 2 f_equal. - rewrite Nat2Z.id, firstn_app, Nat.sub_diag, firstn_all. cbn. apply app_nil_r.
  - f_equal. rewrite Nat2Z.id, E, app_assoc. replace (length a + length m)%nat with (length (a ++ m)) by (rewrite app_length; reflexivity).
    rewrite skipn_app, skipn_all, Nat.sub_diag. reflexivity.
Qed.
Lemma get_ok : forall a m r, get (a ++ m ++ r) (len a) (len m) = Some m.
Proof.
  intros a m r. unfold get. rewrite !app_length. replace ((0 <=? len a) && (0 <=? len m) && (len a + len m <=? Z.of_nat (length a + (length m + length r)))) with true by lia.
  f_equal. rewrite !Nat2Z.id, skipn_app, skipn_all, Nat.sub_diag. cbn [app skipn]. rewrite firstn_app, Nat.sub_diag, firstn_all. cbn. apply app_nil_r.
Qed.
Lemma put0 : forall m r t, length t = length m -> put (m ++ r) 0 t = Some (t ++ r).
Proof. intros m r t E. exact (put_ok [] m r t E). Qed.
Lemma get0 : forall m r, get (m ++ r) 0 (len m) = Some m.
Proof. intros m r. exact (get_ok [] m r). Qed.

Lemma inv_make : forall ty l a b c x rest, 0 <= ty <= 4 -> l = len c -> len c < 2 ^ bits ty ->
  (ty <> 0 -> len c <= a /\ a < 2 ^ bits ty /\ len b = a + 1) -> b = c ++ x :: rest -> inv (mk ty l a b) c x.
Proof. intros ty l a b c x rest T L B A E. unfold inv. cbn [s_ty s_len s_alloc s_buf]. repeat (split; [assumption|]). exists rest. exact E. Qed.

Lemma avail_ok : forall s c x, inv s c x -> avail s = if s_ty s =? 0 then 0 else s_alloc s - len c.
Proof.
  intros s c x (T & L & B & A & _). unfold avail. destruct (Z.eqb_spec (s_ty s) 0) as [E|E]; [reflexivity|]. destruct (A E) as (A1 & A2 & _).
  destruct (bits_64 (s_ty s) T) as (B1 & B2). rewrite L. destruct (Z.eqb_spec (s_ty s) 3) as [E3|E3].
  - apply to_u_small. rewrite (B2 E3) in A2. change (2 ^ 32) with 4294967296. lia.
  - apply to_u_small. change (2 ^ 64) with 18446744073709551616. lia.
Qed.
Lemma avail_nonneg : forall s c x, inv s c x -> 0 <= avail s.
Proof. intros s c x I. rewrite (avail_ok s c x I). destruct I as (T & L & B & A & _). destruct (Z.eqb_spec (s_ty s) 0) as [E|E]; [lia|]. specialize (A E). lia. Qed.

Lemma alloc_set : forall ty l a b n, 0 <= ty <= 4 -> 0 <= n < 2 ^ bits ty -> ty <> 0 -> setalloc (mk ty l a b) n = mk ty l n b.
Proof. intros ty l a b n T N E. unfold setalloc. cbn [s_ty s_len s_buf]. destruct (Z.eqb_spec ty 0); [lia|]. rewrite to_u_small by exact N. reflexivity. Qed.

Lemma fresh_split : forall j n l, 0 <= n -> (l <= Z.to_nat n)%nat -> exists m r, fresh j n = m ++ r /\ length m = l.
Proof.
  intros j n l N L. exists (firstn l (fresh j n)), (skipn l (fresh j n)). split; [symmetry; apply firstn_skipn|].
  rewrite firstn_length. pose proof (fresh_len j n N). lia.
Qed.
Lemma regrow_len : forall j b n, 0 <= n -> len (regrow j b n) = n.
Proof.
  intros j b n N. unfold regrow. rewrite app_length, firstn_length, skipn_length. pose proof (fresh_len j n N). lia.
Qed.
Lemma regrow_keep : forall j c x rest n, len c + 1 <= n -> exists r, regrow j (c ++ x :: rest) n = c ++ x :: r.
Proof.
  intros j c x rest n N. unfold regrow. assert (exists k, (Z.to_nat n - length c = S k)%nat) as (k & K) by (exists (Z.to_nat n - length c - 1)%nat; lia).
  exists (firstn k rest ++ skipn (length (c ++ x :: rest)) (fresh j n)). rewrite firstn_app, firstn_all2 by lia. rewrite K. cbn [firstn].
  rewrite <- app_assoc. reflexivity.
Qed.

(** a new block that takes the bytes and the byte behind them *)
Lemma moved_ok : forall j s c x n, inv s c x -> len c <= n ->
  exists b r, obind (get (s_buf s) 0 (s_len s + 1)) (fun old => put (fresh j (n + 1)) 0 old) = Some b /\ b = c ++ x :: r /\ len b = n + 1.
Proof.
  intros j s c x n (T & L & B & A & rest & E) N. rewrite E, L.
  replace (c ++ x :: rest) with ((c ++ [x]) ++ rest) by (rewrite <- app_assoc; reflexivity).
  replace (len c + 1) with (len (c ++ [x])) by (rewrite app_length; cbn [length]; lia). rewrite get0. cbn [obind].
  assert (LX : length (c ++ [x]) = (length c + 1)%nat) by (rewrite app_length; reflexivity).
  destruct (fresh_split j (n + 1) (length (c ++ [x]))) as (m & r & F & Lm); [lia|lia|].
  pose proof (fresh_len j (n + 1) ltac:(lia)) as FL. rewrite F in *. rewrite put0 by (symmetry; exact Lm). exists ((c ++ [x]) ++ r), r.
  split; [reflexivity|]. split; [rewrite <- app_assoc; reflexivity|]. rewrite app_length in FL. rewrite app_length. lia.
Qed.

Lemma addlen_ok : forall j s c x n, inv s c x -> 0 <= n -> small (len c + n) ->
  exists s', addlen j s n = Some s' /\ inv s' c x /\ n <= avail s' /\ (0 < n -> s_ty s' <> 0).
Proof.
  intros j s c x n I N SM. pose proof (avail_ok s c x I) as AV. pose proof I as (T & L & B & A & rest & E). unfold addlen.
  destruct (n <=? avail s) eqn:Q.
  - exists s. split; [reflexivity|]. split; [exact I|]. split; [lia|]. intros P Z0. rewrite Z0 in AV. change (0 =? 0) with true in AV. cbn iota in AV. lia.
  - pows. rewrite L. rewrite (to_u_small 64 (len c + n)) by (rewrite P64; lia). cbv zeta.
    set (nl := if len c + n <? 1048576 then (len c + n) * 2 else to_u 64 (len c + n + 1048576)).
    assert (NL : len c + n <= nl < 18446744073709551616).
    { subst nl. destruct (len c + n <? 1048576) eqn:Q2; [lia|]. rewrite to_u_small by (rewrite P64; lia). lia. }
    set (ty := if req_type nl =? 0 then 1 else req_type nl).
    assert (TY : 1 <= ty <= 4 /\ nl < 2 ^ bits ty).
    { destruct (req_ok nl) as (R1 & R2); [rewrite P64; lia|]. subst ty. destruct (Z.eqb_spec (req_type nl) 0) as [Z0|Z0]; [|lia].
      rewrite Z0 in R2. change (nl < 32) in R2. split; [lia|]. change (nl < 256). lia. }
    destruct (Z.eqb_spec (s_ty s) ty) as [Et|Et].
    + rewrite alloc_set by lia. eexists. split; [reflexivity|]. rewrite E. destruct (regrow_keep j c x rest (nl + 1)) as (r & R); [lia|].
      assert (I' : inv (mk ty (len c) nl (regrow j (c ++ x :: rest) (nl + 1))) c x).
      { eapply inv_make; [lia|reflexivity|lia| |exact R]. intros _. split; [lia|]. split; [lia|]. apply regrow_len. lia. }
      split; [exact I'|]. split; [|cbn [s_ty]; lia]. rewrite (avail_ok _ _ _ I'). cbn [s_ty s_alloc]. destruct (Z.eqb_spec ty 0); lia.
    + destruct (moved_ok j s c x nl I) as (b & r & G & Eb & Lb); [lia|]. rewrite L in G.
      destruct (get (s_buf s) 0 (len c + 1)) as [old|]; [|discriminate G]. cbn [obind] in *. rewrite G. cbn [obind].
      unfold setlen. cbn [s_ty s_alloc s_buf]. rewrite (to_u_small _ (len c)) by lia. rewrite alloc_set by lia.
      eexists. split; [reflexivity|].
      assert (I' : inv (mk ty (len c) nl b) c x).
      { eapply inv_make; [lia|reflexivity|lia| |exact Eb]. intros _. split; [lia|]. split; [lia|]. exact Lb. }
      split; [exact I'|]. split; [|cbn [s_ty]; lia]. rewrite (avail_ok _ _ _ I'). cbn [s_ty s_alloc]. destruct (Z.eqb_spec ty 0); lia.
Qed.

(** writing behind the bytes, within the room *)
Lemma append_ok : forall s c x t, inv s c x -> len t <= avail s ->
  exists b y, put (s_buf s) (len c) t = Some b /\ inv (setlen (mk (s_ty s) (s_len s) (s_alloc s) b) (len c + len t)) (c ++ t) y.
Proof.
  intros s c x t I R. pose proof (avail_ok s c x I) as AV. pose proof I as (T & L & B & A & rest & E). rewrite AV in R.
  destruct t as [|t0 t'].
  - exists (s_buf s), x. cbn [length] in *. rewrite E. split; [exact (put_ok c [] (x :: rest) [] eq_refl)|]. rewrite app_nil_r. unfold setlen. cbn [s_ty s_len s_alloc s_buf].
    rewrite to_u_small by lia. eapply inv_make; [exact T|cbn [length]; lia|exact B| |reflexivity]. intros N. rewrite <- E. exact (A N).
  - destruct (Z.eqb_spec (s_ty s) 0) as [Z0|Z0]; [cbn [length] in R; lia|]. destruct (A Z0) as (A1 & A2 & A3). set (t := t0 :: t') in *.
    assert (LR : (length t <= length rest)%nat) by (rewrite E, app_length in A3; cbn [length] in A3; lia).
    (* x :: rest = m ++ y :: r with length m = length t *)
    destruct (nth_error_split (x :: rest) (length t)) with (a := nth (length t) (x :: rest) 0) as (m & r & X & Lm); [apply nth_error_nth'; cbn [length]; lia|].
    exists (c ++ t ++ nth (length t) (x :: rest) 0 :: r), (nth (length t) (x :: rest) 0). rewrite E. split.
    + rewrite X at 1. apply put_ok. symmetry. exact Lm.
    + unfold setlen. cbn [s_ty s_len s_alloc s_buf]. rewrite to_u_small by lia. eapply inv_make; [exact T|rewrite app_length; lia|rewrite app_length; lia| |rewrite app_assoc; reflexivity].
      intros _. rewrite app_length. split; [lia|]. split; [lia|]. rewrite <- A3, E, X, !app_length. cbn [length]. lia.
Qed.

Lemma set_end : forall s c x, inv s c x -> exists s', with_put s (len c) [0] = Some s' /\ inv s' c 0.
Proof.
  intros s c x (T & L & B & A & rest & E). unfold with_put. rewrite E. replace (c ++ x :: rest) with (c ++ [x] ++ rest) by reflexivity. rewrite put_ok by reflexivity.
  cbn [obind]. eexists. split; [reflexivity|]. eapply inv_make; [exact T|exact L|exact B| |reflexivity]. intros N. destruct (A N) as (A1 & A2 & A3).
  split; [exact A1|]. split; [exact A2|]. rewrite <- A3, E, !app_length. reflexivity.
Qed.

(** fewer bytes in the same memory *)
Lemma shrink_ok : forall s c x b c' y r, inv s c x -> len c' <= len c -> length b = length (s_buf s) -> b = c' ++ y :: r ->
  inv (setlen (mk (s_ty s) (s_len s) (s_alloc s) b) (len c')) c' y.
Proof.
  intros s c x b c' y r (T & L & B & A & rest & E) Lc Lb Eb. unfold setlen. cbn [s_ty s_len s_alloc s_buf]. rewrite to_u_small by lia.
  eapply inv_make; [exact T|reflexivity|lia| |exact Eb]. intros N. destruct (A N) as (A1 & A2 & A3). split; [lia|]. split; [lia|]. lia.
Qed.

Lemma seen_ok : forall s c, inv s c 0 -> seen s = Some (c, 0).
Proof.
  intros s c (T & L & B & A & rest & E). unfold seen. rewrite L, E, get0. cbn [obind].
  assert (G : get (c ++ 0 :: rest) (len c) 1 = Some [0]) by exact (get_ok c [0] rest). rewrite G. reflexivity.
Qed.

(** ---- the operations ---- *)
Lemma new_ok : forall j t, small (len t) -> exists s, newlen j t = Some s /\ inv s t 0.
Proof.
  intros j t SM. unfold newlen. cbv zeta. set (ty := if (req_type (len t) =? 0) && (len t =? 0) then 1 else req_type (len t)). pows.
  assert (TY : 0 <= ty <= 4 /\ len t < 2 ^ bits ty /\ (len t = 0 -> ty = 1)).
  { destruct (req_ok (len t)) as (R1 & R2); [rewrite P64; lia|]. subst ty. destruct ((req_type (len t) =? 0) && (len t =? 0)) eqn:Q.
    - split; [lia|]. split; [change (len t < 256); lia|reflexivity].
    - split; [exact R1|]. split; [exact R2|]. intros Z0. rewrite Z0 in Q. cbn in Q. discriminate. }
  destruct TY as (TY & TB & _). unfold setlen. cbn [s_ty s_alloc s_buf]. rewrite (to_u_small _ (len t)) by lia.
  destruct (fresh_split j (len t + 1) (length t)) as (m & r & F & Lm); [lia|lia|]. pose proof (fresh_len j (len t + 1) ltac:(lia)) as FL. rewrite F in *.
  destruct r as [|y r]; [rewrite app_nil_r in FL; lia|]. rewrite app_length in FL. cbn [length] in FL.
  assert (exists a, setalloc (mk ty (len t) 0 (m ++ y :: r)) (len t) = mk ty (len t) a (m ++ y :: r) /\ (ty <> 0 -> a = len t)) as (a & Ea & Ha).
  { unfold setalloc. cbn [s_ty s_len s_buf]. destruct (Z.eqb_spec ty 0); [exists 0; split; [reflexivity|lia]|]. rewrite (to_u_small _ (len t)) by lia. exists (len t). split; [reflexivity|reflexivity]. }
  rewrite Ea. unfold with_put at 1. cbn [s_ty s_len s_alloc s_buf]. rewrite put0 by (symmetry; exact Lm). cbn [obind].
  assert (I : inv (mk ty (len t) a (t ++ y :: r)) t y).
  { eapply inv_make; [exact TY|reflexivity|exact TB| |reflexivity]. intros N. rewrite (Ha N) in *. split; [lia|]. split; [exact TB|]. rewrite app_length. cbn [length]. lia. }
  destruct (set_end _ _ _ I) as (s & Hs & I'). exists s. split; [exact Hs|exact I'].
Qed.

Lemma cat_ok : forall j s c x t, inv s c x -> small (len c + len t) -> exists s', catlen j s t = Some s' /\ inv s' (c ++ t) 0.
Proof.
  intros j s c x t I SM. destruct (addlen_ok j s c x (len t) I ltac:(lia) SM) as (s1 & E1 & I1 & R & _). unfold catlen. cbv zeta.
  pose proof I as (_ & L & _). rewrite E1, L. cbn [obind]. destruct (append_ok s1 c x t I1 R) as (b & y & P & I2). unfold with_put at 1. rewrite P. cbn [obind].
  destruct (set_end _ _ _ I2) as (s3 & E3 & I3). rewrite app_length, Nat2Z.inj_add in E3. exists s3. split; [exact E3|exact I3].
Qed.

Lemma fit_ok : forall j s c, inv s c 0 -> exists s', fit j s = Some s' /\ inv s' c 0.
Proof.
  intros j s c I. pose proof I as (T & L & B & A & rest & E). unfold fit. cbv zeta. rewrite L.
  assert (RB : 0 <= len c < 2 ^ 64). { split; [lia|]. destruct (bits_64 (s_ty s) T). change (2 ^ 64) with 18446744073709551616. lia. }
  destruct (req_ok (len c) RB) as (R1 & R2). destruct ((s_ty s =? req_type (len c)) || (1 <? req_type (len c))) eqn:Q.
  - rewrite E. destruct (regrow_keep j c 0 rest (len c + 1)) as (r & R); [lia|]. pose proof (regrow_len j (c ++ 0 :: rest) (len c + 1) ltac:(lia)) as RL.
    unfold setalloc. cbn [s_ty s_len s_buf]. destruct (Z.eqb_spec (s_ty s) 0) as [Z0|Z0].
    + eexists. split; [reflexivity|]. eapply inv_make; [exact T|reflexivity|exact B|intros N; lia|exact R].
    + rewrite to_u_small by lia. eexists. split; [reflexivity|]. eapply inv_make; [exact T|reflexivity|exact B| |exact R]. intros _. split; [lia|]. split; [lia|exact RL].
  - destruct (moved_ok j s c 0 (len c) I) as (b & r & G & Eb & Lb); [lia|]. rewrite L in G. destruct (get (s_buf s) 0 (len c + 1)) as [old|]; [|discriminate G].
    cbn [obind] in *. rewrite G. cbn [obind]. unfold setlen. cbn [s_ty s_alloc s_buf]. rewrite (to_u_small _ (len c)) by lia. unfold setalloc. cbn [s_ty s_len s_buf].
    destruct (Z.eqb_spec (req_type (len c)) 0) as [Z0|Z0].
    + eexists. split; [reflexivity|]. eapply inv_make; [exact R1|reflexivity|exact R2|intros N; lia|exact Eb].
    + rewrite to_u_small by lia. eexists. split; [reflexivity|]. eapply inv_make; [exact R1|reflexivity|exact R2| |exact Eb]. intros _. split; [lia|]. split; [lia|exact Lb].
Qed.

Lemma clear_ok : forall s c, inv s c 0 -> exists s', clear s = Some s' /\ inv s' [] 0.
Proof.
  intros s c I. pose proof I as (T & L & B & A & rest & E).
  assert (exists y r, s_buf s = [] ++ y :: r) as (y & r & Eb) by (rewrite E; destruct c as [|a c']; [exists 0, rest|exists a, (c' ++ 0 :: rest)]; reflexivity).
  pose proof (shrink_ok s c 0 (s_buf s) [] y r I ltac:(cbn [length]; lia) eq_refl Eb) as I2. cbn [length] in I2.
  destruct (set_end _ _ _ I2) as (s' & E' & I'). exists s'. split; [exact E'|exact I'].
Qed.

Lemma chars_app_zero : forall c rest, ~ In 0 c -> chars (c ++ 0 :: rest) = c.
Proof. induction c as [|x c IH]; intros rest N; cbn [app chars]; [reflexivity|]. destruct (Z.eqb_spec x 0) as [->|X]; [destruct N; left; reflexivity|]. rewrite IH; [reflexivity|]. intros K. apply N. right. exact K. Qed.
Lemma chars_app_any : forall c rest, chars (c ++ 0 :: rest) = chars c.
Proof. induction c as [|x c IH]; intros rest; cbn [app chars]; [reflexivity|]. destruct (x =? 0); [reflexivity|]. rewrite IH. reflexivity. Qed.
Lemma chars_split : forall c rest, exists r, c ++ 0 :: rest = chars c ++ 0 :: r.
Proof.
  induction c as [|x c IH]; intros rest; cbn [app chars]; [exists rest; reflexivity|]. destruct (Z.eqb_spec x 0) as [->|X]; [exists (c ++ 0 :: rest); reflexivity|].
  destruct (IH rest) as (r & R). exists r. rewrite R. reflexivity.
Qed.
Lemma chars_len : forall c, len (chars c) <= len c.
Proof. induction c as [|x c IH]; cbn [chars]; [lia|]. destruct (x =? 0); cbn [length] in *; lia. Qed.
Lemma update_ok : forall s c, inv s c 0 -> exists s', updatelen s = Some s' /\ inv s' (chars c) 0.
Proof.
  intros s c I. pose proof I as (T & L & B & A & rest & E). unfold updatelen.
  replace (existsb (Z.eqb 0) (s_buf s)) with true by (symmetry; apply existsb_exists; exists 0; split; [rewrite E; apply in_or_app; right; left; reflexivity|reflexivity]).
  eexists. split; [reflexivity|]. destruct (chars_split c rest) as (r & R).
  replace (chars (s_buf s)) with (chars c) by (rewrite E, chars_app_any; reflexivity). destruct s as [ty l a b]. cbn [s_ty s_len s_alloc s_buf] in *.
  apply (shrink_ok (mk ty l a b) c 0 b (chars c) 0 r I); [apply chars_len|reflexivity|rewrite E; exact R].
Qed.

Lemma grow_ok : forall j s c n, inv s c 0 -> small n -> exists s', growzero j s n = Some s' /\ inv s' (c ++ repeat 0 (Z.to_nat n - length c)) 0.
Proof.
  intros j s c n I SM. pose proof I as (T & L & B & A & rest & E). unfold growzero. cbv zeta. rewrite L. destruct (n <=? len c) eqn:Q.
  - exists s. split; [reflexivity|]. replace (Z.to_nat n - length c)%nat with O by lia. cbn [repeat]. rewrite app_nil_r. exact I.
  - destruct (addlen_ok j s c 0 (n - len c) I ltac:(lia)) as (s1 & E1 & I1 & R & NT); [replace (len c + (n - len c)) with n by lia; exact SM|]. rewrite E1. cbn [obind].
    specialize (NT ltac:(lia)). pose proof (avail_ok s1 c 0 I1) as AV. pose proof I1 as (T1 & L1 & B1 & A1 & rest1 & X1). destruct (A1 NT) as (A2 & A3 & A4).
    destruct (Z.eqb_spec (s_ty s1) 0) as [Z0|_]; [lia|]. rewrite AV in R.
    set (k := (Z.to_nat n - length c)%nat). replace (Z.to_nat (n - len c + 1)) with (S k) by lia.
    assert (LR : (k <= length rest1)%nat) by (rewrite X1, app_length in A4; cbn [length] in A4; lia).
    unfold with_put. rewrite X1.
    replace (c ++ 0 :: rest1) with (c ++ (0 :: firstn k rest1) ++ skipn k rest1) by (cbn [app]; rewrite firstn_skipn; reflexivity).
    rewrite put_ok by (rewrite repeat_length; cbn [length]; rewrite firstn_length; lia). cbn [obind]. eexists. split; [reflexivity|].
    unfold setlen. cbn [s_ty s_len s_alloc s_buf]. rewrite to_u_small by lia.
    assert (LC : len (c ++ repeat 0 k) = n) by (rewrite app_length, repeat_length; lia).
    eapply inv_make with (rest := skipn k rest1); [exact T1|lia|lia| |].
    + intros _. split; [lia|]. split; [lia|]. rewrite <- A4, X1, !app_length, repeat_length, skipn_length. cbn [length]. lia.
    + rewrite <- app_assoc. f_equal. replace (S k) with (k + 1)%nat by lia. rewrite repeat_app. cbn [repeat]. rewrite <- app_assoc. reflexivity.
Qed.

Lemma put_part : forall b t, len t <= len b -> exists r, put b 0 t = Some (t ++ r) /\ length (t ++ r) = length b.
Proof.
  intros b t H. exists (skipn (length t) b). split.
  - rewrite <- (firstn_skipn (length t) b) at 1. apply put0. rewrite firstn_length. lia.
  - rewrite app_length, skipn_length. lia.
Qed.

Lemma cpy_ok : forall j s c t, inv s c 0 -> small (len t) -> exists s', cpylen j s t = Some s' /\ inv s' t 0.
Proof.
  intros j s c t I SM. unfold cpylen.
  assert (exists s1 c1, (if alloc s <? len t then addlen j s (to_u 64 (len t - s_len s)) else Some s) = Some s1 /\ inv s1 c1 0 /\ (s_ty s1 = 0 -> len t <= len c1) /\ (s_ty s1 <> 0 -> len t <= s_alloc s1)) as (s1 & c1 & E1 & I1 & Z1 & N1).
  { pose proof I as (T & L & B & A & rest & E). unfold alloc. destruct ((if s_ty s =? 0 then s_len s else s_alloc s) <? len t) eqn:Q.
    - assert (LT : len c < len t) by (destruct (Z.eqb_spec (s_ty s) 0) as [Z0|Z0]; [lia|specialize (A Z0); lia]).
      pows. rewrite L, to_u_small by (rewrite P64; lia).
      destruct (addlen_ok j s c 0 (len t - len c) I ltac:(lia)) as (s1 & E1 & I1 & R & NT); [unfold small; rewrite P60; lia|]. exists s1, c. split; [exact E1|]. split; [exact I1|].
      specialize (NT ltac:(lia)). split; [lia|]. intros _. rewrite (avail_ok s1 c 0 I1) in R. destruct (Z.eqb_spec (s_ty s1) 0); lia.
    - exists s, c. split; [reflexivity|]. split; [exact I|]. destruct (Z.eqb_spec (s_ty s) 0); split; intros; lia. }
  rewrite E1. cbn [obind]. pose proof I1 as (T1 & L1 & B1 & A1 & rest1 & X1).
  assert (CAP : len t + 1 <= len (s_buf s1) /\ len t < 2 ^ bits (s_ty s1)).
  { destruct (Z.eq_dec (s_ty s1) 0) as [Z0|Z0]; [specialize (Z1 Z0); rewrite X1, app_length; cbn [length]; lia|]. specialize (N1 Z0). specialize (A1 Z0). lia. }
  destruct (put_part (s_buf s1) t) as (r & P & PL); [lia|]. unfold with_put at 1. rewrite P. cbn [obind].
  destruct r as [|y r]; [rewrite app_nil_r in PL; lia|].
  unfold with_put. cbn [s_ty s_len s_alloc s_buf]. replace (t ++ y :: r) with (t ++ [y] ++ r) by reflexivity. rewrite put_ok by reflexivity. cbn [obind].
  eexists. split; [reflexivity|]. unfold setlen. cbn [s_ty s_len s_alloc s_buf]. rewrite to_u_small by lia.
  eapply inv_make; [exact T1|reflexivity|lia| |reflexivity]. intros N. specialize (A1 N). specialize (N1 N). split; [lia|]. split; [lia|].
  rewrite app_length in *. cbn [length app] in *. lia.
Qed.

Lemma incr_fill_ok : forall j s c n t, inv s c 0 -> 0 < n -> len t <= n -> small (len c + n) ->
  exists s', exec j s (OFill n t) = Some s' /\ inv s' (c ++ t) 0.
Proof.
  intros j s c n t I N LT SM. cbn [exec]. destruct (addlen_ok j s c 0 n I ltac:(lia) SM) as (s1 & E1 & I1 & R & NT). rewrite E1. cbn [obind].
  pose proof I as (_ & L & _). rewrite L. destruct (append_ok s1 c 0 t I1 ltac:(lia)) as (b & y & P & I2). unfold with_put at 1. rewrite P. cbn [obind].
  unfold incrlen. cbn [s_ty s_len s_alloc]. specialize (NT N). rewrite (avail_ok s1 c 0 I1) in R. pose proof I1 as (T1 & L1 & B1 & A1 & _). specialize (A1 NT).
  destruct (Z.eqb_spec (s_ty s1) 0); [lia|]. rewrite L1. replace (((0 <=? len t) && (len t <=? s_alloc s1 - len c)) || ((len t <? 0) && (- len t <=? len c))) with true by lia.
  unfold inclen. cbn [s_len]. rewrite L1 in *. cbv zeta. destruct (set_end _ _ _ I2) as (s' & E' & I'). exists s'. split; [|exact I'].
  pose proof I2 as (_ & L2 & _). rewrite L2. exact E'.
Qed.

Lemma cut_ok : forall s c k, inv s c 0 -> 0 < k <= len c -> exists s' c' d, incrlen s (- k) = Some s' /\ inv s' c' 0 /\ c = c' ++ d /\ len d = k.
Proof.
  intros s c k I K. pose proof I as (T & L & B & A & rest & E). unfold incrlen.
  replace (if s_ty s =? 0 then _ else _) with true by (rewrite L; destruct (s_ty s =? 0); lia).
  set (m := Z.to_nat (len c - k)). set (c' := firstn m c). set (d := skipn m c).
  assert (Lc : len c' = len c - k) by (subst c'; rewrite firstn_length; lia). assert (Ld : len d = k) by (subst d; rewrite skipn_length; lia).
  assert (Ec : c = c' ++ d) by (symmetry; apply firstn_skipn). destruct d as [|y d'] eqn:Ed; [cbn in Ld; lia|].
  cbv zeta. unfold inclen. rewrite L. replace (len c + - k) with (len c') by lia.
  assert (I2 : inv (setlen s (len c')) c' y).
  { destruct s as [ty l a b]. cbn [s_ty s_len s_alloc s_buf] in *. apply (shrink_ok (mk ty l a b) c 0 b c' y (d' ++ 0 :: rest) I); [lia|reflexivity|]. rewrite E, Ec, <- app_assoc. reflexivity. }
  destruct (set_end _ _ _ I2) as (s' & E' & I'). exists s', c', (y :: d'). split; [|split; [exact I'|split; [exact Ec|exact Ld]]].
  pose proof I2 as (_ & L2 & _). rewrite L2. exact E'.
Qed.

Lemma map_ok : forall s c f, inv s c 0 -> exists s', mapped f s = Some s' /\ inv s' (map f c) 0.
Proof.
  intros s c f I. pose proof I as (T & L & B & A & rest & E). unfold mapped. rewrite L, E, get0. cbn [obind]. unfold with_put. rewrite E, put0 by (apply map_length). cbn [obind].
  eexists. split; [reflexivity|]. eapply inv_make; [exact T|rewrite map_length; exact L|rewrite map_length; exact B| |reflexivity]. intros N. rewrite map_length. destruct (A N) as (A1 & A2 & A3).
  split; [exact A1|]. split; [exact A2|]. rewrite <- A3, E, !app_length, map_length. reflexivity.
Qed.

(** ---- parts of the bytes ---- *)
(** keeping the n bytes from position p on *)
Lemma part_ok : forall s p m q, inv s (p ++ m ++ q) 0 ->
  exists s1, obind (get (s_buf s) (len p) (len m)) (fun t => with_put s 0 t) = Some s1 /\
    (exists r, s_buf s1 = m ++ r /\ length (s_buf s1) = length (s_buf s)) /\ s_ty s1 = s_ty s /\ s_len s1 = s_len s /\ s_alloc s1 = s_alloc s.
Proof.
  intros s p m q (T & L & B & A & rest & E). rewrite E. replace ((p ++ m ++ q) ++ 0 :: rest) with (p ++ m ++ (q ++ 0 :: rest)) by (rewrite <- !app_assoc; reflexivity).
  rewrite get_ok. cbn [obind]. destruct (put_part (s_buf s) m) as (r & P & PL); [rewrite E, !app_length; lia|]. unfold with_put. rewrite P. cbn [obind].
  eexists. split; [reflexivity|]. cbn [s_buf s_ty s_len s_alloc]. split; [exists r; split; [reflexivity|rewrite PL, E; f_equal; rewrite <- !app_assoc; reflexivity]|]. auto.
Qed.
Lemma close_at : forall s c m r, inv s c 0 -> len m <= len c ->
  forall s1, s_buf s1 = m ++ r -> length (s_buf s1) = length (s_buf s) -> s_ty s1 = s_ty s -> s_len s1 = s_len s -> s_alloc s1 = s_alloc s ->
  exists s', obind (with_put s1 (len m) [0]) (fun s => Some (setlen s (len m))) = Some s' /\ inv s' m 0.
Proof.
  intros s c m r I Lm s1 Eb Lb Et El Ea. pose proof I as (T & L & B & A & rest & E). destruct r as [|y r].
  - exfalso. rewrite E, Eb, !app_length in Lb. cbn [length] in Lb. lia.
  - unfold with_put. rewrite Eb. replace (m ++ y :: r) with (m ++ [y] ++ r) by reflexivity. rewrite put_ok by reflexivity. cbn [obind]. eexists. split; [reflexivity|].
    rewrite Et, El, Ea. eapply shrink_ok; [exact I|exact Lm| |reflexivity]. rewrite <- Lb, Eb, !app_length. reflexivity.
Qed.

Lemma between_all : forall c i lo hi, lo <= i -> i + len c - 1 <= hi -> between i lo hi c = c.
Proof.
  induction c as [|x c IH]; intros i lo hi A B; cbn [between]; [reflexivity|]. cbn [length] in B. replace ((lo <=? i) && (i <=? hi)) with true by lia. rewrite IH by lia. reflexivity.
Qed.
Lemma between_none : forall c i lo hi, i + len c - 1 < lo \/ hi < i \/ hi < lo -> between i lo hi c = [].
Proof.
  induction c as [|x c IH]; intros i lo hi H; cbn [between]; [reflexivity|]. cbn [length] in H. replace ((lo <=? i) && (i <=? hi)) with false by lia. rewrite IH by lia. reflexivity.
Qed.
Lemma between_app : forall a b i lo hi, between i lo hi (a ++ b) = between i lo hi a ++ between (i + len a) lo hi b.
Proof.
  induction a as [|x a IH]; intros b i lo hi; cbn [app between].
  - cbn [length]. replace (i + Z.of_nat 0) with i by lia. reflexivity.
  - rewrite IH, <- app_assoc. do 3 f_equal. cbn [length]. lia.
Qed.
Lemma between_top : forall c i lo hi h, i + len c - 1 <= hi -> i + len c - 1 <= h -> between i lo hi c = between i lo h c.
Proof.
  induction c as [|x c IH]; intros i lo hi h A B; cbn [between]; [reflexivity|]. cbn [length] in *. replace ((lo <=? i) && (i <=? hi)) with ((lo <=? i) && (i <=? h)) by lia.
  rewrite (IH (i + 1) lo hi h) by lia. reflexivity.
Qed.
Lemma between_split : forall c lo hi, 0 <= lo -> lo <= hi -> hi < len c -> exists p m q, c = p ++ m ++ q /\ len p = lo /\ len m = hi - lo + 1 /\ between 0 lo hi c = m.
Proof.
  intros c lo hi A B C. exists (firstn (Z.to_nat lo) c), (firstn (Z.to_nat (hi - lo + 1)) (skipn (Z.to_nat lo) c)), (skipn (Z.to_nat (hi - lo + 1)) (skipn (Z.to_nat lo) c)).
  set (p := firstn (Z.to_nat lo) c). set (t := skipn (Z.to_nat lo) c). set (m := firstn (Z.to_nat (hi - lo + 1)) t). set (q := skipn (Z.to_nat (hi - lo + 1)) t).
  assert (E : c = p ++ m ++ q) by (subst m q; rewrite firstn_skipn; symmetry; apply firstn_skipn).
  assert (Lp : len p = lo) by (subst p; rewrite firstn_length; lia). assert (Lt : len t = len c - lo) by (subst t; rewrite skipn_length; lia).
  assert (Lm : len m = hi - lo + 1) by (subst m; rewrite firstn_length; lia). split; [exact E|]. split; [exact Lp|]. split; [exact Lm|].
  rewrite E at 1. rewrite !between_app, (between_none p) by lia. rewrite (between_all m) by lia. rewrite (between_none q) by lia. apply app_nil_r.
Qed.

Lemma range_ok : forall s c a b, inv s c 0 -> small (len c) -> - 2 ^ 62 < a < 2 ^ 62 -> - len c <= b < 2 ^ 62 ->
  exists s', range s a b = Some s' /\ inv s' (between 0 (from_end a (len c)) (from_end b (len c)) c) 0.
Proof.
  intros s c a b I SC HA HB. pose proof I as (T & L & B & A & rest & E). pows. unfold range. rewrite L, P63. cbv zeta.
  destruct (Z.eqb_spec (len c) 0) as [C0|C0].
  - exists s. split; [reflexivity|]. destruct c as [|x c]; [exact I|cbn [length] in C0; lia].
  - set (lo := if a <? 0 then Z.max 0 (len c + a) else a). set (hi := if b <? 0 then Z.max 0 (len c + b) else b).
    assert (LO : 0 <= lo < 4611686018427387904 + len c /\ (from_end a (len c) = lo \/ (lo = 0 /\ from_end a (len c) < 0))) by (subst lo; unfold from_end; destruct (a <? 0) eqn:Q; lia).
    assert (HI : 0 <= hi < 4611686018427387904 + len c /\ from_end b (len c) = hi) by (subst hi; unfold from_end; destruct (b <? 0) eqn:Q; lia).
    clearbody lo hi. destruct HI as (HI & ->). destruct LO as (LO & FE).
    assert (BE : between 0 (from_end a (len c)) hi c = between 0 lo hi c).
    { revert FE. generalize (from_end a (len c)) as fe. intros fe FE. destruct FE as [-> | (-> & Q)]; [reflexivity|]. destruct (Z_lt_le_dec hi (len c)) as [H|H].
      - destruct (between_split c 0 hi) as (p & m & q & Ec & Lp & Lm & Bt); [lia|lia|exact H|]. rewrite Bt. destruct p; [|cbn [length] in Lp; lia]. cbn [app] in Ec. rewrite Ec at 1.
        rewrite between_app, between_all by lia. rewrite between_none by lia. apply app_nil_r.
      - rewrite !between_all by lia. reflexivity. }
    rewrite BE. clear BE FE HA HB.
    replace (9223372036854775808 <=? hi - lo + 1) with false by lia.
    destruct (Z_lt_le_dec hi lo) as [H1|H1].
    { replace (hi <? lo) with true by lia. cbn [Z.eqb negb andb]. rewrite between_none by lia. cbn [obind].
      destruct (close_at s c [] (s_buf s) I ltac:(cbn [length]; lia) s) as (s' & E' & I'); try reflexivity. exists s'. split; [exact E'|exact I']. }
    replace (hi <? lo) with false by lia. destruct (Z.eqb_spec (hi - lo + 1) 0) as [|_]; [lia|].
    destruct (Z_le_gt_dec (len c) lo) as [H2|H2].
    { replace (len c <=? lo) with true by lia. rewrite between_none by lia. replace (negb (lo =? 0) && negb (0 =? 0)) with false by lia. cbn [obind].
      destruct (close_at s c [] (s_buf s) I ltac:(cbn [length]; lia) s) as (s' & E' & I'); try reflexivity. exists s'. split; [exact E'|exact I']. }
    replace (len c <=? lo) with false by lia.
    set (h := Z.min hi (len c - 1)).
    assert (NE : (if len c <=? hi then if len c - 1 <? lo then 0 else len c - 1 - lo + 1 else hi - lo + 1) = h - lo + 1).
    { subst h. destruct (len c <=? hi) eqn:Q; [|lia]. replace (len c - 1 <? lo) with false by lia. lia. }
    rewrite NE. assert (BH : between 0 lo hi c = between 0 lo h c).
    { subst h. destruct (Z_le_gt_dec (len c) hi) as [H|H]; [|f_equal; lia]. replace (Z.min hi (len c - 1)) with (len c - 1) by lia.
      apply between_top; lia. }
    rewrite BH. destruct (between_split c lo h) as (p & m & q & Ec & Lp & Lm & Bt); [lia|lia|lia|]. rewrite Bt. replace (h - lo + 1) with (len m) by lia.
    destruct (Z.eqb_spec (len m) 0) as [|_]; [lia|]. destruct (Z.eqb_spec lo 0) as [L0|L0]; cbn [negb andb].
    + cbn [obind]. destruct p; [|cbn [length] in Lp; lia]. cbn [app] in Ec.
      destruct (close_at s c m (q ++ 0 :: rest) I ltac:(lia) s) as (s' & E' & I'); try reflexivity; [rewrite E, Ec, <- app_assoc; reflexivity|]. exists s'. split; [exact E'|exact I'].
    + rewrite Ec in I. destruct (part_ok s p m q I) as (s1 & E1 & (r & R1 & R2) & R3 & R4 & R5). rewrite <- Lp, E1. cbn [obind].
      destruct (close_at s (p ++ m ++ q) m r I ltac:(rewrite !app_length; lia) s1 R1 R2 R3 R4 R5) as (s' & E' & I'). exists s'. split; [exact E'|exact I'].
Qed.

(** trimming *)
Lemma in_set_ok : forall cs x, x <> 0 -> in_set cs x = true <-> inside cs x.
Proof.
  intros cs x N. unfold in_set, inside. rewrite existsb_exists. split.
  - intros (y & I & E). apply in_app_or in I. assert (x = y) by lia. subst y. destruct I as [I|[I|[]]]; [exact I|lia].
  - intros I. exists x. split; [apply in_or_app; left; exact I|lia].
Qed.
Lemma front_ok : forall cs c, ~ In 0 c -> exists a t, c = a ++ t /\ len a = front cs c /\ Forall (inside cs) a /\ (t = [] \/ ~ inside cs (hd 0 t)).
Proof.
  intros cs. induction c as [|x c IH]; intros N; cbn [front].
  - exists [], []. repeat split; auto.
  - destruct (in_set cs x) eqn:Q.
    + destruct IH as (a & t & E & L & F & H); [intros K; apply N; right; exact K|]. exists (x :: a), t. split; [rewrite E; reflexivity|]. split; [cbn [length]; lia|]. split; [|exact H].
      constructor; [|exact F]. apply in_set_ok; [intros ->; apply N; left; reflexivity|exact Q].
    + exists [], (x :: c). split; [reflexivity|]. split; [reflexivity|]. split; [constructor|]. right. cbn [hd]. intros K. apply in_set_ok in K; [congruence|intros ->; apply N; left; reflexivity].
Qed.
Lemma back_ok : forall cs a n t b, ~ In 0 (a ++ t ++ b) -> n = length (a ++ t) -> t <> [] -> ~ inside cs (hd 0 t) -> Forall (inside cs) b ->
  exists m d, t = m ++ d /\ m <> [] /\ Forall (inside cs) d /\ ~ inside cs (last m 0) /\ back cs (a ++ t ++ b) (len a) n = len a + len m - 1.
Proof.
  intros cs a n. induction n as [|n IH]; intros t b NZ En NE H F.
  - rewrite app_length in En. destruct t; [congruence|cbn [length] in En; lia].
  - destruct (exists_last NE) as (t' & y & Et). rewrite Et in *. cbn [back].
    assert (Ln : n = length (a ++ t')) by (rewrite !app_length in *; cbn [length] in En; lia).
    assert (NY : nth n (a ++ (t' ++ [y]) ++ b) 0 = y) by (rewrite <- !app_assoc, app_assoc; rewrite app_nth2 by lia; rewrite Ln, Nat.sub_diag; reflexivity). rewrite NY.
    assert (Y0 : y <> 0) by (intros ->; apply NZ; apply in_or_app; right; apply in_or_app; left; apply in_or_app; right; left; reflexivity).
    destruct ((len a <? Z.of_nat n) && in_set cs y) eqn:Q.
    + apply andb_prop in Q. destruct Q as (Q1 & Q2). apply (in_set_ok cs y Y0) in Q2. rewrite app_length in Ln. assert (T' : t' <> []) by (destruct t'; [cbn [length] in Ln; lia|discriminate]).
      destruct (IH t' (y :: b)) as (m & d & E1 & E2 & E3 & E4 & E5).
      * rewrite <- app_assoc in NZ. exact NZ.
      * rewrite app_length. exact Ln.
      * exact T'.
      * destruct t'; [congruence|exact H].
      * constructor; assumption.
      * exists m, (d ++ [y]). split; [rewrite E1, <- app_assoc; reflexivity|]. split; [exact E2|]. split; [apply Forall_app; split; [exact E3|constructor; [exact Q2|constructor]]|]. split; [exact E4|].
        rewrite <- app_assoc. exact E5.
    + exists (t' ++ [y]), []. split; [symmetry; apply app_nil_r|]. split; [destruct t'; discriminate|]. split; [constructor|]. split.
      * rewrite last_last. destruct (len a <? Z.of_nat n) eqn:Q1; [cbn [andb] in Q; intros K; apply (in_set_ok cs y Y0) in K; congruence|].
        rewrite app_length in Ln. destruct t' as [|z t'']; [exact H|cbn [length] in Ln; lia].
      * rewrite app_length in *. cbn [length] in *. lia.
Qed.
Lemma trim_ok : forall s c cs, inv s c 0 -> ~ In 0 c -> exists s' t, trim s cs = Some s' /\ inv s' t 0 /\ trimmed cs c t.
Proof.
  intros s c cs I NZ. pose proof I as (T & L & B & A & rest & E). unfold trim. rewrite L. assert (G : get (s_buf s) 0 (len c) = Some c) by (rewrite E; apply get0). rewrite G. cbn [obind]. cbv zeta.
  destruct (front_ok cs c NZ) as (a & t & Ec & La & Fa & Ht). rewrite <- La.
  assert (exists m d, t = m ++ d /\ Forall (inside cs) d /\ (m = [] \/ (~ inside cs (hd 0 m) /\ ~ inside cs (last m 0))) /\ (if back cs c (len a) (length c) <? len a then 0 else back cs c (len a) (length c) - len a + 1) = len m) as (m & d & Et & Fd & Hm & Hn).
  { destruct t as [|t0 t'] eqn:Qt.
    - exists [], []. split; [reflexivity|]. split; [constructor|]. split; [left; reflexivity|]. rewrite app_nil_r in Ec. subst c.
      assert (BK : forall n, n = length a -> back cs a (len a) n < len a) by (intros n Hn; destruct n as [|n]; cbn [back]; [lia|]; replace (len a <? Z.of_nat n) with false by lia; cbn [andb]; lia).
      replace (back cs a (len a) (length a) <? len a) with true by (specialize (BK _ eq_refl); lia). reflexivity.
    - destruct Ht as [Ht|Ht]; [discriminate|]. destruct (back_ok cs a (length c) (t0 :: t') []) as (m & d & E1 & E2 & E3 & E4 & E5).
      + rewrite app_nil_r, <- Ec. exact NZ.
      + rewrite Ec. reflexivity.
      + discriminate.
      + exact Ht.
      + constructor.
      + exists m, d. split; [exact E1|]. split; [exact E3|]. split; [right; split; [|exact E4]; rewrite E1 in Ht; destruct m; [congruence|exact Ht]|].
        rewrite app_nil_r, <- Ec in E5. rewrite E5. destruct m; [congruence|]. cbn [length]. destruct (_ <? _) eqn:Q; lia. }
  rewrite Hn. subst t. rewrite Ec in I.
  assert (TR : trimmed cs c m) by (exists a, d; auto).
  assert (GM : get (s_buf s) (len a) (len m) = Some m) by (rewrite E, Ec, <- !app_assoc; apply get_ok). rewrite GM. cbn [obind].
  destruct (part_ok s a m d I) as (s1 & E1 & (r & R1 & R2) & R3 & R4 & R5). rewrite GM in E1. cbn [obind] in E1.
  destruct (0 <? len a) eqn:Q.
  - rewrite E1. cbn [obind]. destruct (close_at s (a ++ m ++ d) m r I ltac:(rewrite !app_length; lia) s1 R1 R2 R3 R4 R5) as (s' & E' & I'). exists s', m. auto.
  - destruct a; [|cbn [length] in Q; lia]. cbn [obind app] in *.
    destruct (close_at s (m ++ d) m (d ++ 0 :: rest) I ltac:(rewrite !app_length; lia) s) as (s' & E' & I'); try reflexivity; [rewrite E, Ec, <- app_assoc; reflexivity|]. exists s', m. auto.
Qed.

(** texts with places *)
Lemma add_text_ok : forall j s c x t, inv s c x -> small (len c + len t) -> exists s' y, add_text j s (len c) t = Some (s', len (c ++ t)) /\ inv s' (c ++ t) y.
Proof.
  intros j s c x t I SM. unfold add_text, room.
  assert (exists s1, (if avail s <? len t then addlen j s (len t) else Some s) = Some s1 /\ inv s1 c x /\ len t <= avail s1) as (s1 & E1 & I1 & R).
  { destruct (avail s <? len t) eqn:Q; [|exists s; split; [reflexivity|split; [exact I|lia]]]. destruct (addlen_ok j s c x (len t) I ltac:(lia) SM) as (s1 & E1 & I1 & R & _). exists s1. auto. }
  rewrite E1. cbn [obind]. destruct (append_ok s1 c x t I1 R) as (b & y & P & I2). unfold with_put. rewrite P. cbn [obind]. eexists. exists y. split; [rewrite app_length, Nat2Z.inj_add; reflexivity|].
  unfold inclen. cbn [s_len]. pose proof I1 as (_ & L1 & _). rewrite L1 in *. exact I2.
Qed.
Lemma add_char_ok : forall s c x y, inv s c x -> 1 <= avail s -> exists s' z, add_char s (len c) y = Some (s', len (c ++ [y])) /\ inv s' (c ++ [y]) z.
Proof.
  intros s c x y I R. unfold add_char, with_put. destruct (append_ok s c x [y] I R) as (b & z & P & I2). rewrite P. cbn [obind]. eexists. exists z. split; [rewrite app_length, Nat2Z.inj_add; reflexivity|].
  unfold inclen. cbn [s_len]. pose proof I as (_ & L1 & _). rewrite L1 in *. exact I2.
Qed.
Lemma one_more : forall j s c x, inv s c x -> small (len c + 1) -> exists s', (if avail s =? 0 then addlen j s 1 else Some s) = Some s' /\ inv s' c x /\ 1 <= avail s'.
Proof.
  intros j s c x I SM. pose proof (avail_nonneg s c x I). destruct (Z.eqb_spec (avail s) 0) as [Q|Q].
  - destruct (addlen_ok j s c x 1 I ltac:(lia) SM) as (s1 & E1 & I1 & R & _). exists s1. auto.
  - exists s. split; [reflexivity|]. split; [exact I|lia].
Qed.
Lemma digits_len : forall n v, (length (digits n v) <= n)%nat.
Proof. induction n as [|n IH]; intros v; cbn [digits]; [cbn; lia|]. destruct (v / 10 =? 0); [cbn [length]; lia|]. rewrite app_length. cbn [length]. specialize (IH (v / 10)). lia. Qed.
Definition weight (a : farg) : Z := match a with ATxt t | ASds t => len t | _ => 21 end.
Lemma ull_len : forall v, (length (ull2str v) <= 20)%nat.
Proof. intros v. unfold ull2str. apply digits_len. Qed.
Lemma ll_len : forall v t, ll2str v = Some t -> (length t <= 21)%nat.
Proof.
  intros v t E. unfold ll2str in E. destruct (v =? - 2 ^ 63); [discriminate|]. destruct (v <? 0); inversion E; subst; cbn [length]; [pose proof (ull_len (- v))|pose proof (ull_len v)]; unfold ull2str in *; lia.
Qed.
Lemma chars_no0 : forall t, ~ In 0 t -> chars t = t.
Proof. induction t as [|x t IH]; intros N; cbn [chars]; [reflexivity|]. destruct (Z.eqb_spec x 0) as [->|X]; [destruct N; left; reflexivity|]. rewrite IH; [reflexivity|]. intros K. apply N. right. exact K. Qed.
Lemma chars_part : forall t, ~ In 0 (chars t) /\ exists r, t = chars t ++ r /\ hd 0 r = 0.
Proof.
  induction t as [|x t (N & r & E & R)]; cbn [chars]; [split; [intros []|exists []; auto]|]. destruct (Z.eqb_spec x 0) as [->|X].
  - split; [intros []|]. exists (0 :: t). auto.
  - split; [intros [H|H]; [exact (X H)|exact (N H)]|]. exists r. cbn [app]. split; [f_equal; exact E|exact R].
Qed.
Lemma arg_ok : forall a, good_arg a -> exists t, arg_text (letter a) a = Some t /\ stands (PPut a) t /\ len t <= weight a /\ wants (letter a) = true.
Proof.
  intros a G. destruct a as [t|t|v|v|v|v]; cbn [good_arg] in G; cbn [arg_text letter stands weight].
  - exists (chars t). destruct (chars_part t) as (N & r & E & R). split; [reflexivity|]. split; [split; [exact N|exists r; auto]|]. split; [|reflexivity].
    rewrite E at 2. rewrite app_length. lia.
  - exists t. repeat split; lia.
  - destruct (ll_ok v) as (t & E & N & _); [change (2 ^ 31) with 2147483648 in G; change (2 ^ 63) with 9223372036854775808; lia|]. exists t. split; [exact E|]. split; [exact N|]. apply ll_len in E. split; [lia|reflexivity].
  - destruct (ll_ok v G) as (t & E & N & _). exists t. split; [exact E|]. split; [exact N|]. apply ll_len in E. split; [lia|reflexivity].
  - destruct (ull_ok v) as (N & _); [change (2 ^ 32) with 4294967296 in G; change (2 ^ 64) with 18446744073709551616; lia|]. exists (ull2str v). split; [reflexivity|]. split; [exact N|]. pose proof (ull_len v). split; [lia|reflexivity].
  - destruct (ull_ok v G) as (N & _). exists (ull2str v). split; [reflexivity|]. split; [exact N|]. pose proof (ull_len v). split; [lia|reflexivity].
Qed.
Lemma total_nonneg : forall ps, 0 <= total ps.
Proof. induction ps as [|p ps IH]; cbn [total fold_right]; [lia|]. unfold total in IH. destruct p as [c|c|[t|t|v|v|v|v]]; lia. Qed.
Lemma letter_ok : forall a, letter a <> 0 /\ letter a <> 37.
Proof. intros [| | | | |]; cbn; lia. Qed.
Lemma fmt_ok : forall ps j s c x, inv s c x -> Forall good_piece ps -> small (len c + 1 + total ps) ->
  exists s' y ts, fmt_loop j s (len c) (format ps ++ [0]) (given ps) = Some (s', len (c ++ concat ts)) /\ inv s' (c ++ concat ts) y /\ Forall2 stands ps ts.
Proof.
  induction ps as [|p ps IH]; intros j s c x I G SM.
  - exists s, x, []. cbn. rewrite app_nil_r. split; [reflexivity|]. split; [exact I|constructor].
  - inversion G as [|? ? Gp G']; subst. pose proof (total_nonneg ps) as TN. cbn [total fold_right] in SM. fold (total ps) in SM. pose proof pow_consts as (P60 & _). unfold small in *. rewrite P60 in *.
    assert (W : 0 <= match p with PPut (ATxt t) | PPut (ASds t) => len t | PPut _ => 21 | _ => 1 end) by (destruct p as [?|?|[?|?|?|?|?|?]]; lia).
    destruct (one_more j s c x I) as (s1 & E1 & I1 & R1); [unfold small; lia|]. cbn [total fold_right] in SM.
    destruct p as [ch|o|a]; cbn [good_piece] in Gp.
    + cbn [format map concat written app fmt_loop given]. destruct (Z.eqb_spec ch 0); [lia|]. rewrite E1. cbn [obind]. destruct (Z.eqb_spec ch 37); [lia|].
      destruct (add_char_ok s1 c x ch I1 R1) as (s2 & y & E2 & I2). rewrite E2. cbn [obind fst snd].
      destruct (IH j s2 (c ++ [ch]) y I2 G') as (s3 & z & ts & E3 & I3 & F3); [unfold small; rewrite app_length; cbn [length]; lia|].
      exists s3, z, ([ch] :: ts). cbn [concat]. rewrite app_assoc. split; [exact E3|]. split; [exact I3|]. constructor; [reflexivity|exact F3].
    + cbn [format map concat written app fmt_loop given]. change (37 =? 0) with false. cbn iota. rewrite E1. cbn [obind]. change (37 =? 37) with true. cbn iota. assert (WF : wants o = false) by (unfold wants; cbn [existsb]; cbn in Gp; destruct (o =? 115) eqn:?, (o =? 83) eqn:?, (o =? 105) eqn:?, (o =? 73) eqn:?, (o =? 117) eqn:?, (o =? 85) eqn:?; cbn; lia). rewrite WF. cbn iota.
      destruct (add_char_ok s1 c x o I1 R1) as (s2 & y & E2 & I2). rewrite E2. cbn [obind fst snd].
      destruct (IH j s2 (c ++ [o]) y I2 G') as (s3 & z & ts & E3 & I3 & F3); [unfold small; rewrite app_length; cbn [length]; lia|].
      exists s3, z, ([o] :: ts). cbn [concat]. rewrite app_assoc. split; [exact E3|]. split; [exact I3|]. constructor; [reflexivity|exact F3].
    + cbn [format map concat written app fmt_loop given]. change (37 =? 0) with false. cbn iota. rewrite E1. cbn [obind]. change (37 =? 37) with true. cbn iota.
      destruct (arg_ok a Gp) as (t & ET & ST & LT & WT). rewrite WT, ET. cbn [obind].
      assert (WA : len t <= match a with ATxt t | ASds t => len t | _ => 21 end) by exact LT.
      destruct (add_text_ok j s1 c x t I1) as (s2 & y & E2 & I2); [unfold small; destruct a; lia|]. rewrite E2. cbn [obind fst snd].
      destruct (IH j s2 (c ++ t) y I2 G') as (s3 & z & ts & E3 & I3 & F3); [unfold small; rewrite app_length; destruct a; lia|].
      exists s3, z, (t :: ts). cbn [concat]. rewrite app_assoc. split; [exact E3|]. split; [exact I3|]. constructor; [exact ST|exact F3].
Qed.
Lemma catfmt_ok : forall j s c ps, inv s c 0 -> Forall good_piece ps -> small (len c + 1 + total ps) ->
  exists s' c', catfmt j s (format ps) (given ps) = Some s' /\ inv s' c' 0 /\ effect c (OFmt ps) c'.
Proof.
  intros j s c ps I G SM. destruct (fmt_ok ps j s c 0 I G SM) as (s1 & y & ts & E1 & I1 & F). unfold catfmt. pose proof I as (_ & L & _). rewrite L, E1. cbn [obind fst snd].
  destruct (set_end _ _ _ I1) as (s2 & E2 & I2). exists s2, (c ++ concat ts). split; [exact E2|]. split; [exact I2|]. exists ts. auto.
Qed.

Lemma exec_ok : forall j s c o, inv s c 0 -> fits c o -> exists s' c', exec j s o = Some s' /\ inv s' c' 0 /\ effect c o c'.
Proof.
  intros j s c o I F. destruct o as [t|t|n|n|n t|k|a b|cs| | | | | |ps]; cbn [fits] in F; cbn [effect].
  - destruct (cat_ok j s c 0 t I F) as (s' & E & I'). exists s', (c ++ t). auto.
  - destruct (cpy_ok j s c t I F) as (s' & E & I'). exists s', t. auto.
  - destruct (grow_ok j s c n I F) as (s' & E & I'). eexists s', _. split; [exact E|]. split; [exact I'|reflexivity].
  - destruct F as (F1 & F2). destruct (addlen_ok j s c 0 n I F1 F2) as (s' & E & I' & _). exists s', c. auto.
  - destruct F as (F1 & F2 & F3). destruct (incr_fill_ok j s c n t I F1 F2 F3) as (s' & E & I'). exists s', (c ++ t). auto.
  - destruct (cut_ok s c k I F) as (s' & c' & d & E & I' & Ec & Ld). exists s', c'. split; [exact E|]. split; [exact I'|]. exists d. auto.
  - destruct F as (F1 & F2 & F3). destruct (range_ok s c a b I F3 F1 F2) as (s' & E & I'). eexists s', _. split; [exact E|]. split; [exact I'|reflexivity].
  - destruct (trim_ok s c cs I F) as (s' & t & E & I' & Tr). exists s', t. auto.
  - destruct (clear_ok s c I) as (s' & E & I'). exists s', []. auto.
  - destruct (update_ok s c I) as (s' & E & I'). exists s', (chars c). auto.
  - destruct (fit_ok j s c I) as (s' & E & I'). exists s', c. auto.
  - destruct (map_ok s c toupper I) as (s' & E & I'). exists s', (map toupper c). split; [exact E|]. split; [exact I'|]. apply map_ext. intros x. unfold toupper, upper. destruct ((97 <=? x) && (x <=? 122)); lia.
  - destruct (map_ok s c tolower I) as (s' & E & I'). exists s', (map tolower c). split; [exact E|]. split; [exact I'|]. apply map_ext. intros x. unfold tolower, lower. destruct ((65 <=? x) && (x <=? 90)); lia.
  - destruct F as (F1 & F2). destruct (catfmt_ok j s c ps I F1 F2) as (s' & c' & E & I' & Ef). exists s', c'. auto.
Qed.

Lemma run_ok : forall os j k s c, inv s c 0 -> allowed c os -> exists s' c', run j k s os = Some s' /\ inv s' c' 0 /\ effects c os c'.
Proof.
  induction os as [|o os IH]; intros j k s c I Al; cbn [run].
  - exists s, c. split; [reflexivity|]. split; [exact I|constructor].
  - destruct Al as (F & K). destruct (exec_ok (j k) s c o I F) as (s1 & c1 & E1 & I1 & Ef). rewrite E1. cbn [obind].
    destruct (IH j (S k) s1 c1 I1 (K c1 Ef)) as (s2 & c2 & E2 & I2 & Es). exists s2, c2. split; [exact E2|]. split; [exact I2|]. econstructor; eassumption.
Qed.
