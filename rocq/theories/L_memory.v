(** Proofs about the memory buffer. *)
From Verif Require Import Base M_memory S_memory.
From Coq Require Import ZifyBool ZifyNat.

(** offset never passes size, and size never passes the allocation *)
Definition mem_ok (m : mem) : Prop :=
  (moff m <= length (mbuf m))%nat /\ msize m <= mmax m.

Lemma mem_ok_create : mem_ok mem_create.
Proof. split; cbn; lia. Qed.

Lemma mem_ok_create_size sz : 0 <= sz -> mem_ok (mem_create_size sz).
Proof. split; cbn; lia. Qed.

Lemma mem_grow_ok m n : mem_ok m -> msize m <= n ->
  mem_ok (mem_grow m n) /\ mem_live (mem_grow m n) = mem_live m /\ n <= mmax (mem_grow m n)
  /\ (length (mbuf (mem_grow m n)) <= length (mbuf m))%nat.
Proof.
  intros [H1 H2] Hn. unfold mem_grow. destruct (Z.ltb_spec (mmax m) n) as [Hlt|Hge].
  - unfold mem_ok, mem_live, msize in *; cbn [mbuf moff mmax].
    rewrite skipn_length. rewrite skipn_O.
    assert (0 <= (n + mmax m) / 2) by (apply Z.div_pos; lia).
    assert (0 < SIS_MEMORY_SIZE) by (unfold SIS_MEMORY_SIZE; lia).
    repeat split; try lia.
  - unfold mem_ok; repeat split; try lia.
Qed.

Lemma mem_cat_spec m bs : mem_ok m ->
  mem_ok (mem_cat m bs) /\ mem_live (mem_cat m bs) = mem_live m ++ bs.
Proof.
  intros Hok. unfold mem_cat. destruct bs as [|b bs'].
  - rewrite app_nil_r. split; [assumption|reflexivity].
  - set (bs := b :: bs').
    destruct (mem_grow_ok m (Z.of_nat (length bs) + msize m) Hok ltac:(lia)) as ([G1 G2] & G3 & G4 & G5).
    set (m1 := mem_grow m _) in *.
    unfold mem_ok, mem_live, msize in *; cbn [mbuf moff mmax].
    rewrite app_length. split; [split; lia|].
    rewrite skipn_app_le by lia. rewrite G3. reflexivity.
Qed.

Lemma mem_pack_spec m : mem_ok m -> mem_ok (mem_pack m) /\ mem_live (mem_pack m) = mem_live m.
Proof.
  intros [H1 H2]. unfold mem_pack.
  destruct (Nat.leb_spec (moff m) 0); [split; [split|]; auto|].
  destruct (Nat.ltb_spec (length (mbuf m) - 1) (moff m)).
  - unfold mem_ok, mem_live, msize in *; cbn [mbuf moff mmax length].
    split; [split; lia|]. rewrite (skipn_all2 (mbuf m)) by lia. reflexivity.
  - destruct (Nat.ltb 0 (mem_get_size m) && (mmax m / 3 <? msize m))%bool.
    + unfold mem_ok, mem_live, msize in *; cbn [mbuf moff mmax]. rewrite skipn_length, skipn_O.
      split; [split; lia|reflexivity].
    + split; [split|]; auto.
Qed.

Lemma mem_move_spec m n : mem_ok m ->
  mem_ok (mem_move m n) /\ mem_live (mem_move m n) = skipn n (mem_live m).
Proof.
  intros [H1 H2]. unfold mem_move, mem_ok, mem_live, msize in *.
  rewrite skipn_skipn'.
  destruct (Nat.leb_spec (moff m + n) (length (mbuf m))); cbn [mbuf moff mmax].
  - split; [split; lia|]. f_equal; lia.
  - split; [split; lia|]. rewrite !skipn_all2 by lia. reflexivity.
Qed.

Lemma mem_set_maxsize_spec m n : mem_ok m ->
  mem_ok (mem_set_maxsize m n) /\ mem_live (mem_set_maxsize m n) = mem_live m.
Proof.
  intros [H1 H2]. unfold mem_set_maxsize. destruct (Z.ltb_spec (mmax m) n).
  - unfold mem_ok, mem_live, msize in *; cbn [mbuf moff mmax]. rewrite skipn_length, skipn_O.
    split; [split; lia|reflexivity].
  - split; [split|]; auto.
Qed.

Lemma mem_clear_spec m : mem_ok m -> mem_ok (mem_clear m) /\ mem_live (mem_clear m) = [].
Proof. intros [H1 H2]. unfold mem_ok, mem_live, msize in *; cbn in *; split; [split; lia|reflexivity]. Qed.

Lemma mem_step_spec m o : mem_ok m ->
  mem_ok (mem_step m o) /\ mem_live (mem_step m o) = queue_step (mem_live m) o.
Proof.
  intros H. destruct o; cbn [mem_step queue_step].
  - apply mem_cat_spec; auto.
  - apply mem_move_spec; auto.
  - apply mem_pack_spec; auto.
  - apply mem_set_maxsize_spec; auto.
  - apply mem_clear_spec; auto.
Qed.

Lemma mem_run_spec os m : mem_ok m ->
  mem_ok (fold_left mem_step os m)
  /\ mem_live (fold_left mem_step os m) = queue_run (mem_live m) os.
Proof.
  revert m; induction os as [|o os IH]; intros m H; cbn [fold_left].
  - split; [assumption|reflexivity].
  - destruct (mem_step_spec m o H) as [H1 H2].
    destruct (IH _ H1) as [H3 H4]. split; [assumption|].
    rewrite H4, H2. reflexivity.
Qed.

(** *** reading bytes *)

Lemma mem_byte_live stale m i b : mem_ok m ->
  nth_error (mem_live m) i = Some b -> mem_byte stale m (moff m + i) = Some b.
Proof.
  intros [H1 H2] Hn. unfold mem_byte, mem_live in *.
  assert (Hl : (i < length (skipn (moff m) (mbuf m)))%nat)
    by (apply nth_error_Some; congruence).
  rewrite skipn_length in Hl.
  destruct (Nat.ltb_spec (moff m + i) (length (mbuf m))); [|lia].
  f_equal. apply nth_error_nth.
  rewrite <- Hn. clear. revert m. intros [l o mx]; cbn [mbuf moff].
  revert l; induction o as [|o IH]; intros l; cbn [skipn plus]; [reflexivity|].
  destruct l as [|x l]; cbn [nth_error]; [destruct i; reflexivity|apply IH].
Qed.

Lemma mem_peek_live stale m bs rest i : mem_ok m ->
  skipn i (mem_live m) = bs ++ rest ->
  mem_peek stale m (moff m + i) (length bs) = Some bs.
Proof.
  intros Hok. revert i; induction bs as [|b bs IH]; intros i Hs; cbn [length mem_peek]; [reflexivity|].
  assert (Hn : nth_error (mem_live m) i = Some b).
  { rewrite <- (firstn_skipn i (mem_live m)) at 1. rewrite Hs.
    assert (i < length (mem_live m))%nat.
    { destruct (Nat.ltb_spec i (length (mem_live m))); [assumption|].
      rewrite skipn_all2 in Hs by lia. discriminate. }
    rewrite nth_error_app2; rewrite firstn_length_le by lia; [|lia].
    rewrite Nat.sub_diag. reflexivity. }
  rewrite (mem_byte_live stale m i b Hok Hn).
  rewrite <- Nat.add_succ_r. rewrite (IH (S i)); [reflexivity|].
  replace (S i) with (1 + i)%nat by lia. rewrite <- skipn_skipn'. rewrite Hs. reflexivity.
Qed.

Lemma mem_get_byte_live stale m bs rest n : mem_ok m ->
  mem_live m = bs ++ rest -> length bs = n ->
  mem_get_byte stale m n = Some (to_s 64 (le_val bs), mem_move m n).
Proof.
  intros Hok Hl Hn. unfold mem_get_byte.
  replace (moff m) with (moff m + 0)%nat at 1 by lia. subst n.
  rewrite (mem_peek_live stale m bs rest 0 Hok) by assumption. reflexivity.
Qed.

Lemma mem_move_live m bs rest n : mem_ok m -> mem_live m = bs ++ rest -> length bs = n ->
  mem_ok (mem_move m n) /\ mem_live (mem_move m n) = rest.
Proof.
  intros Hok Hl Hn. destruct (mem_move_spec m n Hok) as [H1 H2]. split; [assumption|].
  rewrite H2, Hl, <- Hn. apply skipn_app_exact.
Qed.

(** *** the length codec *)

(** the bytes the writer produces *)
Definition ssize_bytes (v : Z) : list Z :=
  if 4294967295 <? v then 254 :: le_bytes 8 v
  else if 65785 <? v then 253 :: le_bytes 4 v
  else if 505 <? v then 252 :: le_bytes 2 (v - 250)
  else if 250 <? v then 251 :: le_bytes 1 (v - 250)
  else [v].

Lemma mem_cat_byte_spec m v n : mem_ok m ->
  (n = 1 \/ n = 2 \/ n = 4 \/ n = 8)%nat ->
  mem_ok (mem_cat_byte m v n) /\ mem_live (mem_cat_byte m v n) = mem_live m ++ le_bytes n v.
Proof.
  intros Hok Hn. unfold mem_cat_byte.
  replace (Nat.eqb n 1 || Nat.eqb n 2 || Nat.eqb n 4 || Nat.eqb n 8)%bool with true.
  - apply mem_cat_spec; assumption.
  - destruct Hn as [->|[->|[->| ->]]]; reflexivity.
Qed.

Lemma mem_cat_ssize_spec m v : mem_ok m -> 0 <= v ->
  mem_ok (mem_cat_ssize m v) /\ mem_live (mem_cat_ssize m v) = mem_live m ++ ssize_bytes v.
Proof.
  intros Hok Hv. unfold mem_cat_ssize, ssize_bytes.
  change (65535 + 250) with 65785. change (255 + 250) with 505.
  destruct (Z.ltb_spec 4294967295 v); [|destruct (Z.ltb_spec 65785 v);
    [|destruct (Z.ltb_spec 505 v); [|destruct (Z.ltb_spec 250 v)]]].
  1-4: match goal with Hok : mem_ok ?mm |- context [mem_cat_byte (mem_cat_byte ?mm ?c 1) ?w ?n] =>
         destruct (mem_cat_byte_spec mm c 1 Hok ltac:(lia)) as [A1 A2];
         destruct (mem_cat_byte_spec (mem_cat_byte mm c 1) w n A1 ltac:(lia)) as [B1 B2]
       end; split; [assumption|]; rewrite B2, A2; cbn [le_bytes];
       rewrite <- app_assoc; reflexivity.
  destruct (mem_cat_byte_spec m v 1 Hok ltac:(lia)) as [A1 A2].
  split; [assumption|]. rewrite A2. cbn [le_bytes]. rewrite Z.mod_small by lia. reflexivity.
Qed.

Lemma ssize_bytes_length v : length (ssize_bytes v) = ssize_ret v.
Proof.
  unfold ssize_bytes, ssize_ret. change (65535 + 250) with 65785. change (255 + 250) with 505.
  destruct (4294967295 <? v); [reflexivity|]. destruct (65785 <? v); [reflexivity|].
  destruct (505 <? v); [reflexivity|]. destruct (250 <? v); reflexivity.
Qed.

Lemma ssize_bytes_byte v : 0 <= v -> Forall is_byte (ssize_bytes v).
Proof.
  intros Hv. unfold ssize_bytes.
  destruct (4294967295 <? v); [constructor; [unfold is_byte; lia|apply le_bytes_byte]|].
  destruct (65785 <? v); [constructor; [unfold is_byte; lia|apply le_bytes_byte]|].
  destruct (505 <? v); [constructor; [unfold is_byte; lia|apply le_bytes_byte]|].
  destruct (Z.ltb_spec 250 v); [constructor; [unfold is_byte; lia|apply le_bytes_byte]|].
  constructor; [unfold is_byte; lia|constructor].
Qed.

(** step lemma: reading a marker byte and then an n-byte value *)
Lemma mem_get_byte_step stale m b rest : mem_ok m -> is_byte b -> mem_live m = b :: rest ->
  mem_get_byte stale m 1 = Some (b, mem_move m 1)
  /\ mem_ok (mem_move m 1) /\ mem_live (mem_move m 1) = rest.
Proof.
  intros Hok Hb Hl.
  rewrite (mem_get_byte_live stale m [b] rest 1 Hok Hl eq_refl).
  destruct (mem_move_live m [b] rest 1 Hok Hl eq_refl) as [H1 H2].
  split; [|split; assumption]. f_equal. f_equal. cbn [le_val].
  unfold is_byte in Hb. rewrite to_s_small; lia.
Qed.

Lemma mem_get_byte_n stale m bs rest n : mem_ok m -> Forall is_byte bs -> length bs = n ->
  mem_live m = bs ++ rest ->
  mem_get_byte stale m n = Some (to_s 64 (le_val bs), mem_move m n)
  /\ mem_ok (mem_move m n) /\ mem_live (mem_move m n) = rest.
Proof.
  intros Hok Hb Hn Hl.
  rewrite (mem_get_byte_live stale m bs rest n Hok Hl Hn).
  destruct (mem_move_live m bs rest n Hok Hl Hn) as [H1 H2]. auto.
Qed.

Lemma mem_get_ssize_spec stale m v rest : mem_ok m -> 0 <= v < 2 ^ 64 ->
  mem_live m = ssize_bytes v ++ rest ->
  exists m', mem_get_ssize stale m = Some (v, m') /\ mem_ok m' /\ mem_live m' = rest
    /\ mbuf m' = mbuf m /\ moff m' = (moff m + length (ssize_bytes v))%nat /\ mmax m' = mmax m.
Proof.
  intros Hok Hv Hl.
  assert (Hlen : (moff m + length (ssize_bytes v) <= length (mbuf m))%nat).
  { assert (E := f_equal (@length Z) Hl). unfold mem_live in E.
    rewrite skipn_length, app_length in E. destruct Hok. 
    assert (1 <= length (ssize_bytes v))%nat.
    { rewrite ssize_bytes_length; unfold ssize_ret.
      destruct (4294967295 <? v); [lia|]. destruct (65535 + 250 <? v); [lia|].
      destruct (255 + 250 <? v); [lia|]. destruct (250 <? v); lia. }
    lia. }
  assert (Hmv : forall a b, (moff m + (a + b) <= length (mbuf m))%nat ->
     mbuf (mem_move (mem_move m a) b) = mbuf m
     /\ moff (mem_move (mem_move m a) b) = (moff m + (a + b))%nat
     /\ mmax (mem_move (mem_move m a) b) = mmax m).
  { intros a b Hab. unfold mem_move. destruct (Nat.leb_spec (moff m + a) (length (mbuf m))); [|lia].
    cbn [mbuf moff mmax]. destruct (Nat.leb_spec (moff m + a + b) (length (mbuf m))); [|lia].
    cbn [mbuf moff mmax]. repeat split; lia. }
  assert (Hm1 : forall a, (moff m + a <= length (mbuf m))%nat ->
     mbuf (mem_move m a) = mbuf m /\ moff (mem_move m a) = (moff m + a)%nat
     /\ mmax (mem_move m a) = mmax m).
  { intros a Ha. unfold mem_move. destruct (Nat.leb_spec (moff m + a) (length (mbuf m))); [|lia].
    cbn; auto. }
  unfold mem_get_ssize, ssize_bytes in *.
  destruct (Z.ltb_spec 4294967295 v); [|destruct (Z.ltb_spec 65785 v);
    [|destruct (Z.ltb_spec 505 v); [|destruct (Z.ltb_spec 250 v)]]].
  - destruct (mem_get_byte_step stale m 254 _ Hok ltac:(unfold is_byte; lia) Hl) as (E1 & O1 & L1).
    rewrite E1. cbn [Z.eqb Pos.eqb orb].
    destruct (mem_get_byte_n stale (mem_move m 1) (le_bytes 8 v) rest 8 O1 (le_bytes_byte 8 v) (le_bytes_length 8 v) L1)
      as (E2 & O2 & L2).
    rewrite E2. exists (mem_move (mem_move m 1) 8). rewrite le_val_bytes.
    rewrite to_u_to_s by lia. change (256 ^ Z.of_nat 8) with (2 ^ 64).
    unfold to_u. rewrite Z.mod_mod by lia. rewrite Z.mod_small by lia.
    split; [reflexivity|]. split; [assumption|]. split; [assumption|].
    cbn [length] in *. rewrite le_bytes_length in *. apply (Hmv 1%nat 8%nat). lia.
  - destruct (mem_get_byte_step stale m 253 _ Hok ltac:(unfold is_byte; lia) Hl) as (E1 & O1 & L1).
    rewrite E1. cbn [Z.eqb Pos.eqb orb].
    destruct (mem_get_byte_n stale (mem_move m 1) (le_bytes 4 v) rest 4 O1 (le_bytes_byte 4 v) (le_bytes_length 4 v) L1)
      as (E2 & O2 & L2).
    rewrite E2. exists (mem_move (mem_move m 1) 4). rewrite le_val_bytes.
    rewrite to_u_to_s by lia. change (256 ^ Z.of_nat 4) with 4294967296.
    rewrite Z.mod_small by lia. rewrite to_u_small by lia.
    split; [reflexivity|]. split; [assumption|]. split; [assumption|].
    cbn [length] in *. rewrite le_bytes_length in *. apply (Hmv 1%nat 4%nat). lia.
  - destruct (mem_get_byte_step stale m 252 _ Hok ltac:(unfold is_byte; lia) Hl) as (E1 & O1 & L1).
    rewrite E1. cbn [Z.eqb Pos.eqb orb].
    destruct (mem_get_byte_n stale (mem_move m 1) (le_bytes 2 (v - 250)) rest 2 O1 (le_bytes_byte 2 _) (le_bytes_length 2 _) L1)
      as (E2 & O2 & L2).
    rewrite E2. exists (mem_move (mem_move m 1) 2). rewrite le_val_bytes.
    change (256 ^ Z.of_nat 2) with 65536. rewrite Z.mod_small by lia.
    rewrite to_s_small by lia. rewrite to_u_small by lia.
    split; [f_equal; f_equal; lia|]. split; [assumption|]. split; [assumption|].
    cbn [length] in *. rewrite le_bytes_length in *. apply (Hmv 1%nat 2%nat). lia.
  - destruct (mem_get_byte_step stale m 251 _ Hok ltac:(unfold is_byte; lia) Hl) as (E1 & O1 & L1).
    rewrite E1. cbn [Z.eqb Pos.eqb orb].
    destruct (mem_get_byte_n stale (mem_move m 1) (le_bytes 1 (v - 250)) rest 1 O1 (le_bytes_byte 1 _) (le_bytes_length 1 _) L1)
      as (E2 & O2 & L2).
    rewrite E2. exists (mem_move (mem_move m 1) 1). rewrite le_val_bytes.
    change (256 ^ Z.of_nat 1) with 256. rewrite Z.mod_small by lia.
    rewrite to_s_small by lia. rewrite to_u_small by lia.
    split; [f_equal; f_equal; lia|]. split; [assumption|]. split; [assumption|].
    cbn [length] in *. rewrite le_bytes_length in *. apply (Hmv 1%nat 1%nat). lia.
  - destruct (mem_get_byte_step stale m v _ Hok ltac:(unfold is_byte; lia) Hl) as (E1 & O1 & L1).
    rewrite E1.
    destruct (Z.eqb_spec v 254); [lia|]. destruct (Z.eqb_spec v 255); [lia|].
    destruct (Z.eqb_spec v 253); [lia|]. destruct (Z.eqb_spec v 252); [lia|].
    destruct (Z.eqb_spec v 251); [lia|]. cbn [orb].
    exists (mem_move m 1). rewrite to_u_small by lia.
    split; [reflexivity|]. split; [assumption|]. split; [assumption|].
    cbn [length] in *. apply (Hm1 1%nat). lia.
Qed.

(** *** try_ssize *)
Lemma mem_try_ssize_prefix m v k : 0 <= v ->
  mem_live m = firstn k (ssize_bytes v) -> (k < length (ssize_bytes v))%nat ->
  mem_try_ssize m = false.
Proof.
  intros Hv Hl Hk.
  assert (Hs : mem_get_size m = k).
  { unfold mem_get_size. assert (E := f_equal (@length Z) Hl).
    unfold mem_live in E. rewrite skipn_length, firstn_length in E. lia. }
  unfold mem_try_ssize. rewrite Hs, Hl.
  destruct k as [|k]; [reflexivity|].
  unfold ssize_bytes in *.
  destruct (Z.ltb_spec 4294967295 v); [|destruct (Z.ltb_spec 65785 v);
    [|destruct (Z.ltb_spec 505 v); [|destruct (Z.ltb_spec 250 v)]]];
    cbn [firstn length Z.eqb Pos.eqb orb] in *; rewrite ?le_bytes_length in Hk;
    try (apply Nat.ltb_ge; lia).
  lia.
Qed.

Lemma mem_try_ssize_full m v rest : 0 <= v ->
  mem_live m = ssize_bytes v ++ rest -> mem_try_ssize m = true.
Proof.
  intros Hv Hl.
  assert (Hs : (length (ssize_bytes v) <= mem_get_size m)%nat).
  { unfold mem_get_size. assert (E := f_equal (@length Z) Hl).
    unfold mem_live in E. rewrite skipn_length, app_length in E. lia. }
  unfold mem_try_ssize. rewrite Hl. unfold ssize_bytes in *.
  destruct (Z.ltb_spec 4294967295 v); [|destruct (Z.ltb_spec 65785 v);
    [|destruct (Z.ltb_spec 505 v); [|destruct (Z.ltb_spec 250 v)]]];
    cbn [app length Z.eqb Pos.eqb orb] in *; rewrite ?le_bytes_length in Hs;
    try (apply Nat.ltb_lt; lia).
  destruct (Z.eqb_spec v 254); [lia|]. destruct (Z.eqb_spec v 255); [lia|].
  destruct (Z.eqb_spec v 253); [lia|]. destruct (Z.eqb_spec v 252); [lia|].
  destruct (Z.eqb_spec v 251); [lia|]. reflexivity.
Qed.

(** *** statements used by the property file *)
Lemma reach_ok m : mem_reach m -> mem_ok m.
Proof. intros [os ->]. apply mem_run_spec. apply mem_ok_create. Qed.

Lemma ssize_of_create v : 0 <= v -> mem_live (mem_cat_ssize mem_create v) = ssize_bytes v.
Proof. intros Hv. destruct (mem_cat_ssize_spec mem_create v mem_ok_create Hv) as [_ H]. rewrite H. reflexivity. Qed.

Lemma ssize_roundtrip_lemma stale m v tail : mem_reach m -> 0 <= v < 2 ^ 64 ->
  mem_live (mem_cat_ssize m v) = mem_live m ++ mem_live (mem_cat_ssize mem_create v)
  /\ length (mem_live (mem_cat_ssize mem_create v)) = ssize_ret v
  /\ exists m',
    mem_get_ssize stale
      (mem_move (mem_cat (mem_cat_ssize m v) tail) (length (mem_live m))) = Some (v, m')
    /\ mem_live m' = tail.
Proof.
  intros Hr Hv. apply reach_ok in Hr. rewrite ssize_of_create by lia.
  destruct (mem_cat_ssize_spec m v Hr ltac:(lia)) as [A1 A2].
  split; [assumption|]. split; [apply ssize_bytes_length|].
  destruct (mem_cat_spec _ tail A1) as [B1 B2].
  destruct (mem_move_live _ (mem_live m) (ssize_bytes v ++ tail) (length (mem_live m)) B1) as [C1 C2].
  { rewrite B2, A2, <- app_assoc. reflexivity. }
  { reflexivity. }
  destruct (mem_get_ssize_spec stale _ v tail C1 Hv C2) as (m' & E & _ & L & _).
  exists m'. split; assumption.
Qed.

Lemma try_ssize_lemma stale m v : mem_reach m -> 0 <= v < 2 ^ 64 ->
  (forall k, (k < length (mem_live (mem_cat_ssize mem_create v)))%nat ->
     mem_live m = firstn k (mem_live (mem_cat_ssize mem_create v)) -> mem_try_ssize m = false)
  /\ (forall tail, mem_live m = mem_live (mem_cat_ssize mem_create v) ++ tail ->
     mem_try_ssize m = true
     /\ exists m', mem_get_ssize stale m = Some (v, m') /\ mem_live m' = tail).
Proof.
  intros Hr Hv. apply reach_ok in Hr. rewrite ssize_of_create by lia. split.
  - intros k Hk Hl. apply (mem_try_ssize_prefix m v k); auto; lia.
  - intros tail Hl. split; [apply (mem_try_ssize_full m v tail); auto; lia|].
    destruct (mem_get_ssize_spec stale m v tail Hr Hv Hl) as (m' & E & _ & L & _).
    exists m'; auto.
Qed.

Lemma mem_queue_lemma os : mem_live (fold_left mem_step os mem_create) = queue_run [] os.
Proof. destruct (mem_run_spec os mem_create mem_ok_create) as [_ H]. exact H. Qed.
