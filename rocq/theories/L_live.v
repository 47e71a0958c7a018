(** Lemmas on the model of the live stream. *)
From Coq Require Import ZArith List Bool Lia ZifyBool ZifyNat.
From Verif Require Import Base S_server M_server S_sub M_sub L_sub S_live M_live.
Import ListNotations.
Open Scope Z_scope.

(** * names and filters *)
Lemma name_all_app ks ss : forall a b, name_all ks ss (a ++ b) =
  match name_all ks ss a, name_all ks ss b with Some x, Some y => Some (x ++ y) | _, _ => None end.
Proof.
  induction a as [|r a IH]; intros b; cbn [app name_all].
  - destruct (name_all ks ss b); reflexivity.
  - rewrite IH. destruct (name_rec ks ss r), (name_all ks ss a), (name_all ks ss b); reflexivity.
Qed.
Lemma name_all_app_inv ks ss a b x : name_all ks ss (a ++ b) = Some x ->
  exists y z, name_all ks ss a = Some y /\ name_all ks ss b = Some z /\ x = y ++ z.
Proof.
  rewrite name_all_app. destruct (name_all ks ss a) as [y|], (name_all ks ss b) as [z|]; try discriminate.
  intros E. injection E as <-. exists y, z. auto.
Qed.

Lemma filter_ext_in' {A} (f g : A -> bool) l : (forall x, In x l -> f x = g x) -> filter f l = filter g l.
Proof. apply filter_ext_in. Qed.
Lemma match_keys_ok kpat keys : good_names keys -> asks_some kpat keys -> match_keys kpat keys = filter (side_covers true kpat) keys.
Proof.
  intros (_ & F) H. unfold match_keys. rewrite casecmp_same.
  destruct (same kpat [STAR]) eqn:E.
  - symmetry. apply L_sub.filter_all. intros x _. unfold side_covers. rewrite E. reflexivity.
  - assert (Q : filter (fun k => subcmp false k (Some kpat)) keys = filter (side_covers true kpat) keys).
    { apply filter_ext_in'. intros x I. rewrite Forall_forall in F. rewrite subcmp_covers by auto.
      unfold side_covers. rewrite E. reflexivity. }
    rewrite Q. destruct (filter (side_covers true kpat) keys) eqn:Z; [exfalso|reflexivity].
    destruct H as [H|(k & I & C)]; [congruence|].
    assert (J : In k (filter (side_covers true kpat) keys)) by (apply filter_In; split; [exact I|unfold side_covers; rewrite C; apply orb_true_r]).
    rewrite Z in J. destruct J.
Qed.
Lemma match_sdbs_ok spat sdbs : good_names sdbs -> match_sdbs spat sdbs = filter (side_covers false spat) sdbs.
Proof.
  intros (_ & F). unfold match_sdbs. rewrite casecmp_same.
  destruct (same spat [STAR]) eqn:E.
  - symmetry. apply L_sub.filter_all. intros x _. unfold side_covers. rewrite E. reflexivity.
  - apply filter_ext_in'. intros x I. rewrite Forall_forall in F. rewrite subcmp_covers by auto.
    unfold side_covers. rewrite E. reflexivity.
Qed.

Lemma nodup_lower_eq keys k k' : NoDup (map (map lower) keys) -> In k keys -> In k' keys -> same k' k = true -> k' = k.
Proof.
  induction keys as [|x keys IH]; intros N I I' S; [destruct I|].
  cbn in N. inversion N as [|? ? NI N']; subst. apply same_iff in S.
  destruct I as [->|I], I' as [->|I']; auto.
  - exfalso. apply NI. rewrite <- S. apply in_map. exact I'.
  - exfalso. apply NI. rewrite S. apply in_map. exact I.
  - apply IH; auto. apply same_iff. exact S.
Qed.
Lemma index_of_some : forall l k n, index_of l k = Some n -> exists x, nth_error l n = Some x /\ same x k = true.
Proof.
  induction l as [|x l IH]; intros k n E; cbn in E; [discriminate|].
  rewrite casecmp_same in E. destruct (same x k) eqn:S.
  - injection E as <-. exists x. auto.
  - destruct (index_of l k) as [m|] eqn:Q; [|discriminate]. injection E as <-. apply IH. exact Q.
Qed.
Lemma index_of_none : forall l k, index_of l k = None -> forall x, In x l -> same x k = false.
Proof.
  induction l as [|x l IH]; intros k E y I; [destruct I|]. cbn in E. rewrite casecmp_same in E.
  destruct (same x k) eqn:S; [discriminate|]. destruct (index_of l k) eqn:Q; [discriminate|].
  destruct I as [->|I]; auto.
Qed.
Lemma index_filter (f : str -> bool) l i k : NoDup (map (map lower) l) -> nth_error l i = Some k ->
  if f k then exists n, index_of (filter f l) k = Some n /\ nth_error (filter f l) n = Some k else index_of (filter f l) k = None.
Proof.
  intros N E. apply nth_error_In in E. destruct (f k) eqn:F.
  - destruct (index_of (filter f l) k) as [n|] eqn:Q.
    + exists n. split; [reflexivity|]. destruct (index_of_some _ _ _ Q) as (x & X & S). rewrite X. f_equal.
      assert (I := nth_error_In _ _ X). apply filter_In in I. apply (nodup_lower_eq l); tauto.
    + exfalso. assert (I : In k (filter f l)) by (apply filter_In; auto).
      assert (S := index_of_none _ _ Q k I). rewrite same_refl in S. discriminate.
  - destruct (index_of (filter f l) k) as [n|] eqn:Q; [exfalso|reflexivity].
    destruct (index_of_some _ _ _ Q) as (x & X & S). assert (I := nth_error_In _ _ X). apply filter_In in I.
    destruct I as (I & G). rewrite (nodup_lower_eq l k x N E I S) in G. congruence.
Qed.

Definition dict_of (z : zipers) (keys sdbs : list str) (kpat spat : str) : Prop :=
  z_uk z = keys /\ z_us z = sdbs /\ z_zk z = match_keys kpat keys /\ z_zs z = match_sdbs spat sdbs.

Lemma dec_zip_ok z keys sdbs kpat spat : dict_of z keys sdbs kpat spat -> good_names keys -> good_names sdbs -> asks_some kpat keys ->
  forall l all, name_all keys sdbs l = Some all ->
  exists out, dec_all (dec_zip z) l = Some out /\ name_all (z_zk z) (z_zs z) out = Some (filter (asks kpat spat) all).
Proof.
  intros (UK & US & ZK & ZS) GK GS AS.
  rewrite (match_keys_ok _ _ GK AS) in ZK. rewrite (match_sdbs_ok _ _ GS) in ZS.
  induction l as [|((i, j), p) l IH]; intros all E; cbn [name_all] in E.
  - injection E as <-. exists []. auto.
  - unfold name_rec in E at 1. destruct (nth_error keys i) as [k|] eqn:K; [|discriminate].
    destruct (nth_error sdbs j) as [s|] eqn:S; [|discriminate].
    destruct (name_all keys sdbs l) as [xs|] eqn:X; [|discriminate]. injection E as <-.
    destruct (IH xs eq_refl) as (out & D & N). clear IH.
    cbn [dec_all dec_zip]. rewrite UK, US, K, S, D. cbn [filter asks].
    assert (A := index_filter (side_covers true kpat) keys i k (proj1 GK) K).
    assert (B := index_filter (side_covers false spat) sdbs j s (proj1 GS) S).
    rewrite ZK, ZS in *.
    destruct (side_covers true kpat k).
    + destruct A as (a & A1 & A2). rewrite A1. destruct (side_covers false spat s).
      * destruct B as (b & B1 & B2). rewrite B1. cbn [andb]. exists ((a, b, p) :: out). split; [reflexivity|].
        cbn [name_all]. unfold name_rec. rewrite A2, B2, N. reflexivity.
      * rewrite B. cbn [andb]. exists out. auto.
    + rewrite A. cbn [andb]. exists out. auto.
Qed.
Lemma dec_total {A} (f : lrec -> option (option A)) keys sdbs : (forall i j p k s, nth_error keys i = Some k -> nth_error sdbs j = Some s -> f (i, j, p) <> None) ->
  forall l all, name_all keys sdbs l = Some all -> dec_all f l <> None.
Proof.
  intros H. induction l as [|((i, j), p) l IH]; intros all E; cbn [dec_all name_all] in *; [discriminate|].
  unfold name_rec in E at 1. destruct (nth_error keys i) as [k|] eqn:K; [|discriminate].
  destruct (nth_error sdbs j) as [s|] eqn:S; [|discriminate].
  destruct (name_all keys sdbs l) as [xs|] eqn:X; [|discriminate].
  specialize (IH xs eq_refl). specialize (H i j p k s K S).
  destruct (f (i, j, p)) as [[x|]|]; [| |congruence]; destruct (dec_all f l); congruence.
Qed.
Lemma dec_zip_total z i j p k s : nth_error (z_uk z) i = Some k -> nth_error (z_us z) j = Some s -> dec_zip z (i, j, p) <> None.
Proof.
  intros K S. unfold dec_zip. rewrite K, S. destruct (index_of (z_zk z) k); [|discriminate]. destruct (index_of (z_zs z) s); discriminate.
Qed.
Lemma dec_one_total z i j p k s : nth_error (z_uk z) i = Some k -> nth_error (z_us z) j = Some s -> dec_one z (i, j, p) <> None.
Proof.
  intros K S. unfold dec_one. rewrite K, S. destruct (index_of (z_zk z) k); [|discriminate]. destruct (index_of (z_zk z) s); discriminate.
Qed.

(** * blocks *)
Lemma starts_app outs b i : (i < length outs)%nat -> starts_at (outs ++ [b]) i <-> starts_at outs i.
Proof. intros H. unfold starts_at. rewrite nth_error_app1 by exact H. tauto. Qed.
Lemma range_app n m outs b : (m <= length outs)%nat -> range n m (outs ++ [b]) = range n m outs.
Proof.
  intros H. unfold range. destruct (Nat.leb_spec n (length outs)).
  - rewrite skipn_app. replace (n - length outs)%nat with O by lia. cbn [skipn].
    rewrite firstn_app. rewrite skipn_length. replace (m - n - (length outs - n))%nat with O by lia.
    cbn [firstn]. apply app_nil_r.
  - replace (m - n)%nat with O by lia. reflexivity.
Qed.
Lemma range_S n c outs b : nth_error outs c = Some b -> (n <= c)%nat -> range n (S c) outs = range n c outs ++ [b].
Proof.
  intros E L. unfold range. replace (S c - n)%nat with (S (c - n)) by lia.
  assert (E' : nth_error (skipn n outs) (c - n) = Some b).
  { rewrite <- E. replace c with (n + (c - n))%nat at 2 by lia. clear. revert outs. induction n as [|n IH]; intros outs; [reflexivity|].
    destruct outs; cbn [skipn Nat.add nth_error]; [destruct (c - S n)%nat; reflexivity|]. 
    generalize (c - S n)%nat. intros k. clear IH. revert outs. induction n as [|n IH]; intros outs; [reflexivity|].
    destruct outs; cbn [skipn Nat.add nth_error]; [destruct k; reflexivity|apply IH]. }
  revert E'. generalize (skipn n outs), (c - n)%nat. clear. intros l k. revert l.
  induction k as [|k IH]; intros l E; destruct l as [|x l]; try discriminate.
  - cbn in E. injection E as ->. reflexivity.
  - cbn [nth_error] in E. cbn [firstn app]. f_equal. apply IH. exact E.
Qed.
Lemma range_nil n outs : range n n outs = [].
Proof. unfold range. rewrite Nat.sub_diag. reflexivity. Qed.
Lemma recs_app a b : recs_of (a ++ b) = recs_of a ++ recs_of b.
Proof. unfold recs_of. rewrite map_app, concat_app. reflexivity. Qed.
Lemma nth_skipn {A} (l : list A) n i : nth_error (skipn n l) i = nth_error l (n + i).
Proof.
  revert l. induction n as [|n IH]; intros l; [reflexivity|]. destruct l; cbn [skipn Nat.add nth_error]; [destruct i; reflexivity|apply IH].
Qed.

(** * the invariant *)
Definition phase (p : lpc) (c : Z) : nat :=
  match p with PStop1 x _ => if x =? c then 1 else 0 | PStop2 x _ => if x =? c then 2 else 0 | _ => 0 end.
Definition pub_pc (p : lpc) : option lblock := match p with PBegin _ b | PNear b | PPush b => Some b | _ => None end.
Definition stop_pc (p : lpc) : bool := match p with PStop _ | PStop1 _ _ | PStop2 _ _ => true | _ => false end.

(** the messages of a subscriber that asks for something, after [c] blocks *)
Definition coreN (outs : list lblock) (keys sdbs : list str) (d : Z) (r : rd) (n c : nat) (data : list (bool * list lrec)) (closed : bool) : Prop :=
  exists all got,
    let ks := if whole r then keys else match_keys (d_kpat r) keys in
    let ss := if whole r then sdbs else match_sdbs (d_spat r) sdbs in
    d_in r = MStart d :: MKeys ks :: MSdbs ss :: zips data ++ (if closed then [MStop d] else []) /\
    (d_from r <= n <= c)%nat /\ (c <= length outs)%nat /\
    (forall p t, data = p :: t -> fst p = true) /\
    (forall z, d_zs r = Some z -> whole r = false -> z_first z = match data with [] => true | _ => false end) /\
    name_all keys sdbs (recs_of (range n c outs)) = Some all /\
    name_all ks ss (concat (map snd data)) = Some got /\
    got = filter (asks (d_kpat r) (d_spat r)) all /\
    (d_head r = true -> forall j, (d_from r <= j < n)%nat -> ~ starts_at outs j) /\
    (whole r = true -> data = [] -> n = c).
Definition core (outs : list lblock) (keys sdbs : list str) (d : Z) (r : rd) (c : nat) (closed : bool) : Prop :=
  exists n data, (if d_isinit r then (n < c)%nat /\ starts_at outs n else n = c /\ data = []) /\ coreN outs keys sdbs d r n c data closed.
Definition cored (outs : list lblock) (keys sdbs : list str) (d : Z) (r : rd) (c : nat) (closed : bool) : Prop :=
  d_zip r = true -> asks_some (d_kpat r) keys -> core outs keys sdbs d r c closed.

Definition rinv (s : lst) (r : rd) : Prop :=
  let ph := phase (l_pc s) (d_cid r) in
  match d_stat r with
  | StNone => False
  | StInit =>
    d_in r = (if (0 <? ph)%nat then [MStop (l_date s)] else []) /\
    (d_cur r = None \/ (d_cur r = Some (length (l_outs s)) /\ l_day s = length (l_outs s)))
  | StWork =>
    l_stat s = StWork /\
    exists c keys sdbs, d_cur r = Some c /\ l_keys s = Some keys /\ l_sdbs s = Some sdbs /\
      (l_base s <= c <= length (l_outs s))%nat /\ (l_day s <= d_from r <= c)%nat /\
      (whole r = false -> ph <> 2%nat -> exists z, d_zs r = Some z /\ dict_of z keys sdbs (d_kpat r) (d_spat r)) /\
      cored (l_outs s) keys sdbs (l_date s) r c (0 <? ph)%nat /\
      (d_isinit r = false ->
         (forall j, (d_from r <= j < c)%nat -> ~ starts_at (l_outs s) j) \/ exists x, l_near s = Some x /\ (c <= x)%nat)
  | StStop =>
    ph = O /\ d_cur r = None /\
    (d_in r = [MStop (l_date s)] \/
     l_stat s = StWork /\ exists c keys sdbs, l_keys s = Some keys /\ l_sdbs s = Some sdbs /\ (l_day s <= d_from r <= c)%nat /\
       cored (l_outs s) keys sdbs (l_date s) r c true)
  end.
Definition valid (keys sdbs : list str) (b : lblock) : Prop := exists x, name_all keys sdbs (b_recs b) = Some x.
Definition nwork (l : list rd) : nat := length (filter (fun r => is_stat (d_stat r) StWork) l).
Definition cids (s : lst) : list Z := map d_cid (l_rds s).
Definition no_init (s : lst) : Prop := forall r, In r (l_rds s) -> d_stat r <> StInit.

Record linv (s : lst) : Prop := mkinv {
  i_bad : l_bad s = false;
  i_base : (l_day s <= l_base s <= length (l_outs s))%nat;
  i_nostop : l_stat s <> StStop;
  i_early : l_stat s <> StWork -> l_day s = length (l_outs s);
  i_keys : forall ks, l_keys s = Some ks -> good_names ks;
  i_sdbs : forall ss, l_sdbs s = Some ss -> good_names ss;
  i_dict : l_stat s = StWork -> exists ks ss, l_keys s = Some ks /\ l_sdbs s = Some ss /\
    (forall i b, (l_day s <= i)%nat -> nth_error (l_outs s) i = Some b -> valid ks ss b) /\
    (forall b, pub_pc (l_pc s) = Some b -> valid ks ss b);
  i_near : (forall j, (l_day s <= j)%nat -> starts_at (l_outs s) j -> exists x, l_near s = Some x /\ (j <= x)%nat) /\
    (forall x, l_near s = Some x -> (x <= length (l_outs s))%nat /\ (x = length (l_outs s) -> exists b, l_pc s = PPush b /\ b_init b = true) /\
      ((x < length (l_outs s))%nat -> starts_at (l_outs s) x));
  i_near' : forall b, l_pc s = PPush b -> b_init b = true -> l_near s = Some (length (l_outs s));
  i_cids : NoDup (cids s);
  i_ncur : stop_pc (l_pc s) = false -> (l_ncur s <= nwork (l_rds s))%nat;
  i_pc : match l_pc s with
    | PIdle => True
    | PBegin cs b => l_stat s = StWork /\ incl cs (cids s) /\ (forall r, In r (l_rds s) -> d_stat r = StInit -> In (d_cid r) cs)
    | PNear b | PPush b => l_stat s = StWork /\ no_init s
    | PStop cs => quiet s = true /\ incl cs (cids s)
    | PStop1 c cs | PStop2 c cs => quiet s = true /\ incl (c :: cs) (cids s)
    end;
  i_rd : forall r, In r (l_rds s) -> rinv s r }.

Lemma find_some s c r : find_rd s c = Some r -> In r (l_rds s) /\ d_cid r = c.
Proof. intros F. apply find_some in F. destruct F as (I & E). split; [exact I|lia]. Qed.
Lemma find_none s c : find_rd s c = None -> ~ In c (cids s).
Proof.
  intros F I. unfold cids in I. apply in_map_iff in I. destruct I as (r & E & I).
  assert (N := find_none _ _ F r I). cbn in N. lia.
Qed.
Lemma nodup_cid l r r' : NoDup (map d_cid l) -> In r l -> In r' l -> d_cid r = d_cid r' -> r = r'.
Proof.
  induction l as [|x l IH]; intros N I I' E; [destruct I|]. cbn in N. inversion N as [|? ? NI N']; subst.
  destruct I as [->|I], I' as [->|I']; auto.
  - exfalso. apply NI. rewrite E. apply in_map. exact I'.
  - exfalso. apply NI. rewrite <- E. apply in_map. exact I.
Qed.
Definition upd (c : Z) (r' r : rd) : rd := if d_cid r =? c then r' else r.
Lemma map_upd_cid c r' l : d_cid r' = c -> map d_cid (map (upd c r') l) = map d_cid l.
Proof.
  intros E. rewrite map_map. apply map_ext. intros r. unfold upd. destruct (Z.eqb_spec (d_cid r) c); congruence.
Qed.
Lemma in_upd c r' l x : In x (map (upd c r') l) -> x = r' \/ (In x l /\ d_cid x <> c).
Proof.
  intros I. apply in_map_iff in I. destruct I as (r & E & I). unfold upd in E.
  destruct (Z.eqb_spec (d_cid r) c); subst; auto.
Qed.
Lemma nwork_upd c r r' l : NoDup (map d_cid l) -> In r l -> d_cid r = c ->
  (nwork (map (upd c r') l) + (if is_stat (d_stat r) StWork then 1 else 0) = nwork l + (if is_stat (d_stat r') StWork then 1 else 0))%nat.
Proof.
  induction l as [|x l IH]; intros N I E; [destruct I|]. cbn in N. inversion N as [|? ? NI N']; subst.
  unfold nwork in *. cbn [map filter]. unfold upd at 1.
  destruct I as [->|I].
  - rewrite Z.eqb_refl.
    assert (M : map (upd (d_cid r) r') l = l).
    { rewrite <- (map_id l) at 2. apply map_ext_in. intros y J. unfold upd. destruct (Z.eqb_spec (d_cid y) (d_cid r)) as [Q|]; [|reflexivity].
      exfalso. apply NI. rewrite <- Q. apply in_map. exact J. }
    rewrite M. destruct (is_stat (d_stat r) StWork), (is_stat (d_stat r') StWork); cbn [length]; lia.
  - destruct (Z.eqb_spec (d_cid x) (d_cid r)) as [Q|Q]; [exfalso; apply NI; rewrite Q; apply in_map; exact I|].
    specialize (IH N' I eq_refl). destruct (is_stat (d_stat x) StWork); cbn [length]; lia.
Qed.
Lemma nwork_init l : (forall r, In r l -> d_stat r = StInit) -> nwork l = O.
Proof.
  intros H. unfold nwork. rewrite L_sub.filter_none; [reflexivity|]. intros r I. rewrite (H r I). reflexivity.
Qed.
Lemma nwork_less l r : In r l -> d_stat r = StInit -> (nwork l < length l)%nat.
Proof.
  induction l as [|x l IH]; intros I E; [destruct I|]. unfold nwork in *. cbn [filter length].
  destruct I as [->|I].
  - rewrite E. cbn [is_stat]. assert (Q := L_sub.filter_len _ (fun r => is_stat (d_stat r) StWork) l). lia.
  - specialize (IH I E). destruct (is_stat (d_stat x) StWork); cbn [length]; lia.
Qed.
Lemma quiet_in s r c : quiet s = true -> In r (l_rds s) -> d_cur r = Some c -> c = length (l_outs s).
Proof. intros Q I E. unfold quiet in Q. rewrite forallb_forall in Q. specialize (Q r I). rewrite E in Q. lia. Qed.
Lemma quiet_of s : (forall r c, In r (l_rds s) -> d_cur r = Some c -> c = length (l_outs s)) -> quiet s = true.
Proof.
  intros H. unfold quiet. apply forallb_forall. intros r I. destruct (d_cur r) as [c|] eqn:E; [|reflexivity].
  specialize (H r c I E). lia.
Qed.

Definition same_rd (r r' : rd) : Prop :=
  d_cid r' = d_cid r /\ d_kpat r' = d_kpat r /\ d_spat r' = d_spat r /\ d_zip r' = d_zip r /\ d_head r' = d_head r /\
  d_stat r' = d_stat r /\ d_from r' = d_from r.
Lemma same_whole r r' : same_rd r r' -> whole r' = whole r.
Proof. intros (_ & A & B & _). unfold whole. rewrite A, B. reflexivity. Qed.
Lemma whole_asks r x : whole r = true -> asks (d_kpat r) (d_spat r) x = true.
Proof.
  unfold whole. rewrite !casecmp_same. intros H. apply andb_true_iff in H. destruct H as (A & B).
  destruct x as ((k, s), p). unfold asks, side_covers. rewrite A, B. reflexivity.
Qed.
Definition has_dict (r : rd) (keys sdbs : list str) : Prop :=
  whole r = false -> exists z, d_zs r = Some z /\ dict_of z keys sdbs (d_kpat r) (d_spat r).

Lemma zips_snoc data p : zips (data ++ [p]) = zips data ++ [MZip (fst p) (snd p)].
Proof. unfold zips. rewrite map_app. reflexivity. Qed.
Lemma range_recs n c outs b keys sdbs all x : nth_error outs c = Some b -> (n <= c)%nat ->
  name_all keys sdbs (recs_of (range n c outs)) = Some all -> name_all keys sdbs (b_recs b) = Some x ->
  name_all keys sdbs (recs_of (range n (S c) outs)) = Some (all ++ x).
Proof.
  intros E L A X. rewrite (range_S _ _ _ _ E L), recs_app, name_all_app, A.
  unfold recs_of. cbn [map concat]. rewrite app_nil_r, X. reflexivity.
Qed.

Lemma send_ok outs keys sdbs d r b c : good_names keys -> good_names sdbs -> nth_error outs c = Some b -> valid keys sdbs b ->
  has_dict r keys sdbs ->
  exists r', send r b = Some r' /\ same_rd r r' /\ d_isinit r' = d_isinit r /\ d_cur r' = d_cur r /\ has_dict r' keys sdbs /\
    forall n data, d_zip r = true -> asks_some (d_kpat r) keys -> (n = c -> data = [] /\ b_init b = true) ->
      coreN outs keys sdbs d r n c data false -> exists data', coreN outs keys sdbs d r' n (S c) data' false.
Proof.
  intros GK GS E (x & X) HD. unfold send.
  assert (LC : (c < length outs)%nat) by (apply nth_error_Some; congruence).
  destruct (whole r) eqn:W.
  - exists (if d_zip r then say r [MZip (b_init b) (b_recs b)] else r). split; [reflexivity|].
    assert (SR : same_rd r (if d_zip r then say r [MZip (b_init b) (b_recs b)] else r)) by (destruct (d_zip r); repeat split).
    split; [exact SR|]. split; [destruct (d_zip r); reflexivity|]. split; [destruct (d_zip r); reflexivity|].
    split; [intros Q; rewrite (same_whole _ _ SR), W in Q; discriminate|].
    intros n data Z _ H0 (all & got & D & L1 & L2 & F & ZF & A & G & EG & HH & WD).
    rewrite Z in *. exists (data ++ [(b_init b, b_recs b)]). exists (all ++ x), (got ++ x).
    assert (W' := same_whole _ _ SR). rewrite W'. rewrite W in *. cbn zeta in *.
    split. { cbn [say d_in]. rewrite D, zips_snoc. cbn [fst snd app]. rewrite !app_nil_r. reflexivity. }
    split; [cbn [say d_from]; lia|]. split; [lia|].
    split. { intros p t Q. destruct data as [|q data].
      - cbn in Q. injection Q as <- <-. cbn [fst]. apply H0. auto.
      - cbn [app] in Q. injection Q as <- _. apply (F q data). reflexivity. }
    split; [discriminate|].
    split; [apply (range_recs _ _ _ b); auto; lia|].
    split. { rewrite map_app, concat_app. cbn [map concat snd]. rewrite app_nil_r. rewrite name_all_app, G, X. reflexivity. }
    split. { rewrite filter_app, EG. f_equal. symmetry. apply L_sub.filter_all. intros y _. apply (whole_asks (say r [MZip (b_init b) (b_recs b)])). rewrite W'. reflexivity. }
    split; [exact HH|]. intros _ Q. destruct data; discriminate.
  - destruct (HD W) as (z & Z & DO). rewrite Z.
    assert (UKS := DO). destruct UKS as (UK & US & ZK & ZS).
    destruct (d_zip r) eqn:DZ.
    + destruct (dec_all (dec_zip z) (b_recs b)) as [out|] eqn:O.
      2:{ exfalso. revert O. apply (dec_total _ keys sdbs) with (all := x); [|exact X].
          intros i j p k s K S. apply (dec_zip_total z i j p k s); congruence. }
      assert (SPEC : asks_some (d_kpat r) keys -> name_all (z_zk z) (z_zs z) out = Some (filter (asks (d_kpat r) (d_spat r)) x)).
      { intros AS. destruct (dec_zip_ok z keys sdbs _ _ DO GK GS AS _ _ X) as (o & O1 & O2). congruence. }
      destruct out as [|o out].
      * exists r. split; [reflexivity|]. split; [repeat split|]. split; [reflexivity|]. split; [reflexivity|].
        split; [intros _; exists z; auto|].
        intros n data _ AS H0 (all & got & D & L1 & L2 & F & ZF & A & G & EG & HH & WD).
        exists data, (all ++ x), got. rewrite W in *. cbn zeta in *.
        split; [exact D|]. split; [lia|]. split; [lia|]. split; [exact F|]. split; [exact ZF|].
        split; [apply (range_recs _ _ _ b); auto; lia|]. split; [exact G|].
        split. { rewrite filter_app, <- EG. specialize (SPEC AS). cbn in SPEC. injection SPEC as SPEC. rewrite <- SPEC. symmetry. apply app_nil_r. }
        split; [exact HH|discriminate].
      * eexists. split; [reflexivity|]. split; [repeat split|]. split; [reflexivity|]. split; [reflexivity|].
        split. { intros _. eexists. split; [reflexivity|]. unfold dict_of. cbn. auto. }
        intros n data _ AS H0 (all & got & D & L1 & L2 & F & ZF & A & G & EG & HH & WD).
        exists (data ++ [(z_first z, o :: out)]), (all ++ x), (got ++ filter (asks (d_kpat r) (d_spat r)) x).
        assert (WW : whole (say (with_z r {| z_first := false; z_uk := z_uk z; z_us := z_us z; z_zk := z_zk z; z_zs := z_zs z |}) [MZip (z_first z) (o :: out)]) = false) by exact W.
        rewrite WW. rewrite W in *. cbn zeta in *. cbn [say with_z d_in d_from d_kpat d_spat d_head d_zs].
        split. { rewrite D, zips_snoc. cbn [fst snd app]. rewrite !app_nil_r. reflexivity. }
        split; [lia|]. split; [lia|].
        split. { intros p t Q. destruct data as [|q data].
          - cbn in Q. injection Q as <- <-. cbn [fst]. apply (ZF z Z eq_refl).
          - cbn [app] in Q. injection Q as <- _. apply (F q data). reflexivity. }
        split. { intros z' Q _. injection Q as <-. cbn. destruct data; reflexivity. }
        split; [apply (range_recs _ _ _ b); auto; lia|].
        split. { rewrite map_app, concat_app. cbn [map concat snd]. rewrite app_nil_r. rewrite name_all_app, G. rewrite <- ZK, <- ZS, (SPEC AS). reflexivity. }
        split; [rewrite filter_app, EG; reflexivity|].
        split; [exact HH|discriminate].
    + destruct (dec_all (dec_one z) (b_recs b)) as [out|] eqn:O.
      2:{ exfalso. revert O. apply (dec_total _ keys sdbs) with (all := x); [|exact X].
          intros i j p k s K S. apply (dec_one_total z i j p k s); congruence. }
      eexists. split; [reflexivity|]. split; [repeat split; exact DZ|]. split; [reflexivity|]. split; [reflexivity|].
      split; [intros _; exists z; auto|]. intros n data Q. discriminate.
Qed.

(** one block by an open subscriber *)
Lemma recv_ok outs keys sdbs d r b c near : good_names keys -> good_names sdbs -> nth_error outs c = Some b -> valid keys sdbs b ->
  has_dict r keys sdbs -> cored outs keys sdbs d r c false -> (d_from r <= c)%nat ->
  exists r', recv r b near = Some r' /\ same_rd r r' /\ has_dict r' keys sdbs /\ cored outs keys sdbs d r' (S c) false /\
    (d_isinit r' = false -> d_isinit r = false /\ (starts_at outs c -> d_head r = false /\ near = false)).
Proof.
  intros GK GS E V HD CO LF. assert (LC : (c < length outs)%nat) by (apply nth_error_Some; congruence).
  unfold recv. destruct (d_isinit r) eqn:II.
  - destruct (send_ok outs keys sdbs d r b c GK GS E V HD) as (r' & S & SR & SI & _ & HD' & N).
    exists r'. split; [exact S|]. split; [exact SR|]. split; [exact HD'|]. split; [|intros Q; congruence].
    destruct SR as (S1 & S2 & S3 & S4 & S5 & S6 & S7). intros DZ AS. rewrite S4 in DZ. rewrite S2 in AS.
    destruct (CO DZ AS) as (n & data & II' & CN). rewrite II in II'.
    destruct (N n data DZ AS ltac:(lia) CN) as (data' & CN'). exists n, data'. rewrite SI, II. split; [|exact CN']. split; [lia|tauto].
  - assert (STAY : ~ starts_at outs c \/ d_head r = false -> cored outs keys sdbs d r (S c) false).
    { intros HS DZ AS. destruct (CO DZ AS) as (n & data & II' & CN). rewrite II in II'. destruct II' as (-> & ->).
      exists (S c), []. rewrite II. split; [auto|].
      destruct CN as (all & got & D & L1 & L2 & F & ZF & A & G & EG & HH & WD).
      exists [], []. cbn zeta in *. rewrite range_nil in A |- *. cbn in A. injection A as <-. cbn in G. injection G as <-.
      split; [exact D|]. split; [lia|]. split; [lia|]. split; [exact F|]. split; [exact ZF|]. split; [reflexivity|]. split; [reflexivity|].
      split; [reflexivity|]. split; [|auto]. intros H j J. destruct (Nat.eq_dec j c) as [->|]; [destruct HS; [assumption|congruence]|].
      apply HH; [exact H|lia]. }
    destruct (b_init b) eqn:BI; cbn [negb].
    + destruct (d_head r || near) eqn:HN.
      * destruct (send_ok outs keys sdbs d (with_init r) b c GK GS E V HD) as (r' & S & SR & SI & _ & HD' & N).
        exists r'. split; [exact S|]. split; [exact SR|]. split; [exact HD'|]. split; [|intros Q; cbn in SI; congruence].
        destruct SR as (S1 & S2 & S3 & S4 & S5 & S6 & S7). intros DZ AS. rewrite S4 in DZ. rewrite S2 in AS.
        destruct (CO DZ AS) as (n & data & II' & CN). rewrite II in II'. destruct II' as (-> & ->).
        destruct (N c [] DZ AS ltac:(auto) CN) as (data' & CN'). exists c, data'. rewrite SI. cbn [with_init d_isinit].
        split; [split; [lia|exists b; auto]|exact CN'].
      * apply orb_false_iff in HN. destruct HN as (HH & NN). exists r. split; [reflexivity|]. split; [repeat split|].
        split; [exact HD|]. split; [apply STAY; auto|]. auto.
    + exists r. split; [reflexivity|]. split; [repeat split|]. split; [exact HD|].
      assert (NS : ~ starts_at outs c) by (intros (b' & B1 & B2); congruence).
      split; [apply STAY; auto|]. intros _. split; [reflexivity|]. intros Q. contradiction.
Qed.

(** the invariant of a subscriber survives what leaves its own data alone *)
Lemma core_app outs b keys sdbs d r c closed : core outs keys sdbs d r c closed -> core (outs ++ [b]) keys sdbs d r c closed.
Proof.
  intros (n & data & I & all & got & D & L1 & L2 & F & ZF & A & G & EG & HH & WD).
  exists n, data. split. { destruct (d_isinit r); [|exact I]. rewrite starts_app by lia. exact I. }
  exists all, got. cbn zeta in *. rewrite app_length. cbn [length]. rewrite range_app by exact L2.
  split; [exact D|]. split; [lia|]. split; [lia|]. split; [exact F|]. split; [exact ZF|]. split; [exact A|]. split; [exact G|].
  split; [exact EG|]. split; [|exact WD]. intros H j J. rewrite starts_app by lia. apply HH; assumption.
Qed.

Lemma rinv_frame s s' r : l_stat s' = l_stat s -> l_keys s' = l_keys s -> l_sdbs s' = l_sdbs s -> l_date s' = l_date s ->
  l_outs s' = l_outs s -> l_base s' = l_base s -> l_near s' = l_near s -> l_day s' = l_day s ->
  phase (l_pc s') (d_cid r) = phase (l_pc s) (d_cid r) -> rinv s r -> rinv s' r.
Proof. unfold rinv. intros -> -> -> -> -> -> -> -> ->. auto. Qed.

(** one subscriber changes *)
Lemma upd_inv s c r r2 : linv s -> In r (l_rds s) -> d_cid r = c -> d_cid r2 = c ->
  (stop_pc (l_pc s) = true -> d_cur r2 = d_cur r) -> (d_stat r2 = StInit -> d_stat r = StInit) ->
  (d_stat r2 = StWork \/ d_stat r <> StWork) -> rinv (set_rd s c r2) r2 -> linv (set_rd s c r2).
Proof.
  intros V IR CR C2 QU SI SW RI.
  assert (MU : l_rds (set_rd s c r2) = map (upd c r2) (l_rds s)) by reflexivity.
  assert (CS : cids (set_rd s c r2) = cids s) by (unfold cids; rewrite MU; apply map_upd_cid; exact C2).
  assert (QQ : stop_pc (l_pc s) = true -> quiet s = true -> quiet (set_rd s c r2) = true).
  { intros SP Q. apply quiet_of. intros x n I E. rewrite MU in I. destruct (in_upd _ _ _ _ I) as [->|(J & _)].
    - rewrite (QU SP) in E. apply (quiet_in s r n Q IR E).
    - apply (quiet_in s x n Q J E). }
  constructor.
  - exact (i_bad s V).
  - exact (i_base s V).
  - exact (i_nostop s V).
  - exact (i_early s V).
  - exact (i_keys s V).
  - exact (i_sdbs s V).
  - exact (i_dict s V).
  - exact (i_near s V).
  - exact (i_near' s V).
  - rewrite CS. exact (i_cids s V).
  - intros NS. assert (Q := i_ncur s V NS). cbn [set_rd with_rds l_ncur].
    assert (U := nwork_upd c r r2 (l_rds s) (i_cids s V) IR CR). change (l_rds (set_rd s c r2)) with (map (upd c r2) (l_rds s)).
    destruct SW as [SW|SW]; [rewrite SW in U; cbn [is_stat] in U; destruct (is_stat (d_stat r) StWork); lia|].
    destruct (d_stat r); try congruence; cbn [is_stat] in U; lia.
  - assert (P := i_pc s V). change (l_pc (set_rd s c r2)) with (l_pc s).
    assert (NI : no_init s -> no_init (set_rd s c r2)).
    { intros N x I. rewrite MU in I. destruct (in_upd _ _ _ _ I) as [->|(J & _)]; [|apply N; exact J].
      intros Q. apply (N r IR). auto. }
    destruct (l_pc s) eqn:PE; rewrite ?CS.
    + exact I.
    + destruct P as (P1 & P2 & P3). refine (conj P1 (conj P2 _)). intros x I E. rewrite MU in I.
      destruct (in_upd _ _ _ _ I) as [->|(J & _)]; [|apply P3; assumption]. rewrite C2, <- CR. apply P3; auto.
    + destruct P as (P1 & P2). exact (conj P1 (NI P2)).
    + destruct P as (P1 & P2). exact (conj P1 (NI P2)).
    + destruct P as (P1 & P2). exact (conj (QQ eq_refl P1) P2).
    + destruct P as (P1 & P2). exact (conj (QQ eq_refl P1) P2).
    + destruct P as (P1 & P2). exact (conj (QQ eq_refl P1) P2).
  - intros x I. rewrite MU in I. destruct (in_upd _ _ _ _ I) as [->|(J & _)]; [exact RI|].
    apply (rinv_frame s); try reflexivity. apply (i_rd s V). exact J.
Qed.
Lemma read_inv s c s' : linv s -> read_step s c = Some s' -> linv s'.
Proof.
  intros V R. unfold read_step in R. destruct (find_rd s c) as [r|] eqn:FR; [|discriminate].
  destruct (find_some _ _ _ FR) as (IR & CR). destruct (d_cur r) as [n|] eqn:CU; [|discriminate].
  destruct (nth_error (l_outs s) n) as [b|] eqn:NB; [|discriminate].
  assert (LN : (n < length (l_outs s))%nat) by (apply nth_error_Some; congruence).
  assert (IV := i_rd s V r IR).
  assert (NS : stop_pc (l_pc s) = false).
  { destruct (l_pc s) eqn:P; try reflexivity; assert (PC := i_pc s V); rewrite P in PC;
      assert (Q := quiet_in s r n (proj1 PC) IR CU); lia. }
  assert (PH : forall x, phase (l_pc s) x = O) by (intros x; destruct (l_pc s); try reflexivity; discriminate).
  assert (W : d_stat r = StWork /\ l_stat s = StWork).
  { unfold rinv in IV. destruct (d_stat r); [destruct IV| |tauto|].
    - destruct IV as (_ & [Q|(Q & _)]); [congruence|]. rewrite CU in Q. injection Q as Q. lia.
    - destruct IV as (_ & Q & _). congruence. }
  destruct W as (WR & WS). unfold rinv in IV. rewrite WR in IV.
  destruct IV as (_ & c' & keys & sdbs & CU' & K & SD & LB & LF & ZZ & CO & NE). rewrite PH in *. rewrite CU in CU'. injection CU' as <-.
  destruct (i_dict s V WS) as (ks & ss & K' & SD' & VV & _). rewrite K in K'. injection K' as <-. rewrite SD in SD'. injection SD' as <-.
  assert (GK := i_keys s V _ K). assert (GS := i_sdbs s V _ SD).
  destruct (Nat.ltb_spec n (l_base s)); [lia|].
  set (near := match l_near s with Some x => (x =? n)%nat | None => false end) in R.
  destruct (recv_ok (l_outs s) keys sdbs (l_date s) r b n near GK GS NB (VV n b ltac:(lia) NB)) as (r' & RR & SR & HD & CO' & NI).
  { intros Q. apply ZZ; [exact Q|discriminate]. } { exact CO. } { lia. }
  rewrite RR in R. injection R as <-. destruct SR as (S1 & S2 & S3 & S4 & S5 & S6 & S7).
  set (r2 := with_cur r' (Some (S n))).
  assert (CID : d_cid r2 = c) by (cbn; congruence).
  assert (MU : l_rds (set_rd s c r2) = map (upd c r2) (l_rds s)) by reflexivity.
  assert (CS : cids (set_rd s c r2) = cids s) by (unfold cids; rewrite MU; apply map_upd_cid; exact CID).
  assert (RI : rinv (set_rd s c r2) r2).
  { unfold rinv. cbn [set_rd with_rds l_pc l_stat l_outs l_keys l_sdbs l_base l_near l_day l_date]. rewrite PH. cbn [r2 with_cur d_stat]. rewrite S6, WR.
    split; [exact WS|]. exists (S n), keys, sdbs. cbn [r2 with_cur d_cur d_from d_isinit].
    split; [reflexivity|]. split; [exact K|]. split; [exact SD|]. split; [lia|]. split; [rewrite S7; lia|].
    split; [intros Q _; exact (HD Q)|]. split; [exact CO'|].
    intros Q. destruct (NI Q) as (Q1 & Q2). destruct (NE Q1) as [N1|(x & X1 & X2)].
    - destruct (b_init b) eqn:BI.
      + assert (ST : starts_at (l_outs s) n) by (exists b; auto). destruct (Q2 ST) as (_ & Q3). right.
        destruct (proj1 (i_near s V) n ltac:(lia) ST) as (x & X1 & X2). exists x. split; [exact X1|].
        unfold near in Q3. rewrite X1 in Q3. lia.
      + left. rewrite S7. intros j J. destruct (Nat.eq_dec j n) as [->|]; [intros (b' & B1 & B2); congruence|apply N1; lia].
    - right. exists x. split; [exact X1|]. unfold near in Q2. rewrite X1 in Q2.
      destruct (Nat.eqb_spec x n) as [EX|]; [|lia]. exfalso. rewrite EX in X1.
      destruct (proj2 (proj2 (proj2 (i_near s V) n X1)) LN) as (b' & B1 & B2).
      destruct (Q2 ltac:(exists b'; auto)). discriminate. }
  apply (upd_inv s c r r2); auto.
  - rewrite NS. discriminate.
  - intros Q. cbn [r2 with_cur d_stat] in Q. congruence.
  - cbn [r2 with_cur d_stat]. rewrite S6, WR. left. reflexivity.
Qed.

(** the command in work goes on *)
Definition pc_ok (s : lst) : Prop :=
  match l_pc s with
  | PIdle => True
  | PBegin cs b => l_stat s = StWork /\ incl cs (cids s) /\ (forall r, In r (l_rds s) -> d_stat r = StInit -> In (d_cid r) cs)
  | PNear b | PPush b => l_stat s = StWork /\ no_init s
  | PStop cs => quiet s = true /\ incl cs (cids s)
  | PStop1 c cs | PStop2 c cs => quiet s = true /\ incl (c :: cs) (cids s)
  end.
Definition move (s : lst) (l : list rd) (p : lpc) (n : nat) : lst := with_ncur (with_pc (with_rds s l) p) n.
Lemma move_inv s l p n : linv s -> map d_cid l = cids s ->
  (forall b, pub_pc p = Some b -> pub_pc (l_pc s) = Some b) -> (forall b, l_pc s <> PPush b) -> (forall b, p <> PPush b) ->
  (stop_pc p = false -> (n <= nwork l)%nat) -> pc_ok (move s l p n) -> (forall r, In r l -> rinv (move s l p n) r) ->
  linv (move s l p n).
Proof.
  intros V CS PB NP NP' NC PO RI. constructor.
  - exact (i_bad s V).
  - exact (i_base s V).
  - exact (i_nostop s V).
  - exact (i_early s V).
  - exact (i_keys s V).
  - exact (i_sdbs s V).
  - intros W. destruct (i_dict s V W) as (ks & ss & K & S & A & B). exists ks, ss. repeat (split; [assumption|]). intros b Q. apply B. apply PB. exact Q.
  - split; [exact (proj1 (i_near s V))|]. intros x X. destruct (proj2 (i_near s V) x X) as (A & B & C). split; [exact A|]. split; [|exact C].
    intros Q. destruct (B Q) as (b & Q' & _). exfalso. apply (NP b Q').
  - intros b Q. exfalso. apply (NP' b Q).
  - unfold cids. change (l_rds (move s l p n)) with l. rewrite CS. exact (i_cids s V).
  - exact NC.
  - exact PO.
  - exact RI.
Qed.
Lemma rinv_move s l p n r : phase p (d_cid r) = phase (l_pc s) (d_cid r) -> rinv s r -> rinv (move s l p n) r.
Proof. intros P. apply rinv_frame; try reflexivity. exact P. Qed.

Lemma begin_inv s c r ks ss : linv s -> In r (l_rds s) -> d_cid r = c -> d_stat r = StInit -> stop_pc (l_pc s) = false -> l_stat s = StWork ->
  l_keys s = Some ks -> l_sdbs s = Some ss -> rinv (set_rd s c (begin_rd s ks ss r)) (begin_rd s ks ss r).
Proof.
  intros V IR CR SI NS WS K SD.
  assert (PH : forall x, phase (l_pc s) x = O) by (intros x; destruct (l_pc s); try reflexivity; discriminate).
  assert (IV := i_rd s V r IR). unfold rinv in IV. rewrite SI, PH in IV. cbn [Nat.ltb Nat.leb] in IV. destruct IV as (DI & CU).
  assert (LB := i_base s V). assert (NR := i_near s V).
  unfold rinv. cbn [set_rd with_rds l_pc l_stat l_outs l_keys l_sdbs l_base l_near l_day l_date]. rewrite PH. cbn [begin_rd d_stat d_cur].
  split; [exact WS|]. set (from := match d_cur r with Some c0 => c0 | None => l_base s end).
  assert (LF : (l_base s <= from <= length (l_outs s))%nat) by (unfold from; destruct CU as [->|(-> & _)]; lia).
  exists from, ks, ss. split; [reflexivity|]. split; [exact K|]. split; [exact SD|]. split; [exact LF|]. change (d_from (begin_rd s ks ss r)) with from.
  split; [lia|]. split. { intros W _. change (whole (begin_rd s ks ss r)) with (whole r) in W. cbn [begin_rd d_zs]. rewrite W. eexists. split; [reflexivity|].
    unfold dict_of. cbn. auto. }
  split.
  - intros DZ AS. exists from, []. split; [cbn; auto|]. exists [], []. change (whole (begin_rd s ks ss r)) with (whole r). cbn zeta.
    cbn [begin_rd d_in d_kpat d_spat d_from d_zs d_head]. fold from. rewrite DI.
    split; [reflexivity|]. split; [lia|]. split; [lia|]. split; [discriminate|].
    split. { intros z Q W. rewrite W in Q. injection Q as <-. reflexivity. }
    split; [rewrite range_nil; reflexivity|]. split; [reflexivity|]. split; [reflexivity|]. split; [intros; lia|auto].
  - intros _. left. intros j J. lia.
Qed.

Lemma end1_core outs ks ss d r c s : l_date s = d -> core outs ks ss d r c false -> core outs ks ss d (end1 s r) c true.
Proof.
  intros E (n & data & I & all & got & D & L1 & L2 & F & ZF & A & G & EG & HH & WD). exists n, data. split; [exact I|]. exists all, got.
  change (whole (end1 s r)) with (whole r). cbn zeta in *. cbn [end1 say d_in d_from d_kpat d_spat d_zs d_head].
  split; [rewrite D, E; cbn [app]; rewrite app_nil_r; reflexivity|]. auto 12.
Qed.
Lemma end2_core outs ks ss d r c : core outs ks ss d r c true -> core outs ks ss d (end2 r) c true.
Proof.
  intros (n & data & I & all & got & D & L1 & L2 & F & ZF & A & G & EG & HH & WD). exists n, data. split; [exact I|]. exists all, got.
  change (whole (end2 r)) with (whole r). cbn zeta in *. cbn [end2 d_in d_from d_kpat d_spat d_zs d_head].
  split; [exact D|]. split; [exact L1|]. split; [exact L2|]. split; [exact F|].
  split; [intros z Q W; rewrite W in Q; discriminate|]. auto 12.
Qed.
Lemma upd_rds s c r2 : l_rds (set_rd s c r2) = map (upd c r2) (l_rds s).
Proof. reflexivity. Qed.

Lemma push_rinv s b r : linv s -> l_pc s = PPush b -> In r (l_rds s) ->
  rinv (with_pc (mkl (l_stat s) (l_keys s) (l_sdbs s) (l_date s) (l_outs s ++ [b]) (l_base s) (l_near s) (l_rds s)
      (l_ncur s) (l_pc s) (l_day s) (l_bad s)) PIdle) r.
Proof.
  intros V P I. assert (IV := i_rd s V r I). assert (PC := i_pc s V). rewrite P in PC. destruct PC as (_ & NI). specialize (NI r I).
  unfold rinv in *. cbn [with_pc l_pc l_stat l_outs l_keys l_sdbs l_base l_near l_day l_date phase]. rewrite P in IV. cbn [phase] in IV.
  destruct (d_stat r); [exact IV|congruence| |].
  - destruct IV as (W & c & ks & ss & CU & K & S & LB & LF & Z & CO & NE). split; [exact W|]. exists c, ks, ss.
    rewrite app_length. cbn [length]. repeat (split; [assumption|]). split; [lia|]. split; [lia|]. split; [exact Z|].
    split; [intros DZ AS; apply core_app; auto|]. intros Q. destruct (NE Q) as [N|N]; [left|right; exact N].
    intros j J. rewrite starts_app by lia. apply N. exact J.
  - destruct IV as (Z0 & CU & [D|(W & c & ks & ss & K & S & LF & CO)]); (split; [exact Z0|]); (split; [exact CU|]); [left; exact D|right].
    split; [exact W|]. exists c, ks, ss. repeat (split; [assumption|]). intros DZ AS. apply core_app. auto.
Qed.

Lemma in_upd' s c r r2 x : NoDup (cids s) -> In r (l_rds s) -> d_cid r = c -> In x (map (upd c r2) (l_rds s)) -> x = r2 \/ (In x (l_rds s) /\ d_cid x <> c).
Proof. intros _ _ _. apply in_upd. Qed.

Lemma go_inv s s' : linv s -> go_step s = Some s' -> linv s'.
Proof.
  intros V G. unfold go_step in G. destruct (l_pc s) as [|cs b|b|b|cs|c cs|c cs] eqn:P; [discriminate| | | | | |].
  - (* begin *)
    assert (PC := i_pc s V). rewrite P in PC. destruct PC as (WS & IC & NI).
    destruct (i_dict s V WS) as (ks & ss & K & S & VV & VB).
    assert (NPP : forall x, l_pc s <> PPush x) by (rewrite P; discriminate).
    assert (NC := i_ncur s V). rewrite P in NC. specialize (NC eq_refl).
    destruct cs as [|c cs].
    + injection G as <-. apply (move_inv s (l_rds s) (PNear b) (l_ncur s)); auto.
      * rewrite P. auto.
      * discriminate.
      * split; [exact WS|]. intros r I Q. destruct (NI r I Q).
      * intros r I. apply rinv_move; [rewrite P; reflexivity|apply (i_rd s V); exact I].
    + destruct (find_rd s c) as [r|] eqn:FR; [|discriminate]. rewrite K, S in G. destruct (find_some _ _ _ FR) as (IR & CR).
      destruct (is_stat (d_stat r) StInit) eqn:SI; injection G as <-.
      * assert (SI' : d_stat r = StInit) by (destruct (d_stat r); try discriminate; reflexivity).
        apply (move_inv s (map (upd c (begin_rd s ks ss r)) (l_rds s)) (PBegin cs b) (Datatypes.S (l_ncur s))); auto.
        -- apply map_upd_cid. exact CR.
        -- rewrite P. auto.
        -- discriminate.
        -- intros _. assert (U := nwork_upd c r (begin_rd s ks ss r) (l_rds s) (i_cids s V) IR CR). rewrite SI' in U.
           cbn [begin_rd d_stat is_stat] in U. lia.
        -- split; [exact WS|]. split.
           { unfold cids. cbn [move with_ncur with_pc with_rds l_rds]. rewrite map_upd_cid by exact CR. intros x X. apply IC. right. exact X. }
           intros x I Q. cbn [move with_ncur with_pc with_rds l_rds] in I. destruct (in_upd _ _ _ _ I) as [->|(J & NE)]; [discriminate Q|].
           destruct (NI x J Q) as [E|E]; [congruence|exact E].
        -- intros x I. destruct (in_upd _ _ _ _ I) as [->|(J & NE)].
           ++ apply (rinv_frame (set_rd s c (begin_rd s ks ss r))); try reflexivity.
              { cbn [move with_ncur with_pc l_pc set_rd with_rds phase]. rewrite P. reflexivity. }
              apply begin_inv; auto. rewrite P. reflexivity.
           ++ apply rinv_move; [rewrite P; reflexivity|apply (i_rd s V); exact J].
      * apply (move_inv s (l_rds s) (PBegin cs b) (l_ncur s)); auto.
        -- rewrite P. auto.
        -- discriminate.
        -- split; [exact WS|]. split; [intros x X; apply IC; right; exact X|]. intros x I Q. destruct (NI x I Q) as [E|E]; [|exact E].
           assert (x = r) by (apply (nodup_cid (l_rds s)); auto; [exact (i_cids s V)|congruence]). subst x. rewrite Q in SI. discriminate.
        -- intros x I. apply rinv_move; [rewrite P; reflexivity|apply (i_rd s V); exact I].
  - (* near_object *)
    injection G as <-. assert (PC := i_pc s V). rewrite P in PC. destruct PC as (WS & NI). assert (LB := i_base s V).
    assert (NL : forall x, l_near s = Some x -> (x < length (l_outs s))%nat).
    { intros x X. destruct (proj2 (i_near s V) x X) as (A & B & _). destruct (Nat.eq_dec x (length (l_outs s))) as [Q|]; [|lia].
      destruct (B Q) as (b' & Q' & _). congruence. }
    constructor.
    + exact (i_bad s V).
    + exact (i_base s V).
    + exact (i_nostop s V).
    + exact (i_early s V).
    + exact (i_keys s V).
    + exact (i_sdbs s V).
    + intros W. destruct (i_dict s V W) as (ks & ss & K & S & A & B). exists ks, ss. repeat (split; [assumption|]). intros x Q. apply B. rewrite P. exact Q.
    + cbn [with_pc l_near l_outs l_day l_pc]. split.
      * intros j J ST. assert (LJ : (j < length (l_outs s))%nat) by (destruct ST as (x & X & _); apply nth_error_Some; congruence).
        destruct (b_init b); [exists (length (l_outs s)); split; [reflexivity|lia]|]. exact (proj1 (i_near s V) j J ST).
      * intros x X. destruct (b_init b) eqn:BI.
        -- injection X as <-. split; [lia|]. split; [intros _; exists b; split; [reflexivity|exact BI]|lia].
        -- specialize (NL x X). split; [lia|]. split; [intros; lia|]. exact (proj2 (proj2 (proj2 (i_near s V) x X))).
    + cbn [with_pc l_pc l_near l_outs]. intros x Q BI. injection Q as <-. rewrite BI. reflexivity.
    + exact (i_cids s V).
    + intros _. apply (i_ncur s V). rewrite P. reflexivity.
    + exact (conj WS NI).
    + intros r I. cbn [with_pc l_rds] in I. assert (IV := i_rd s V r I). specialize (NI r I).
      unfold rinv in *. cbn [with_pc l_pc l_stat l_outs l_keys l_sdbs l_base l_near l_day l_date phase]. rewrite P in IV. cbn [phase] in IV.
      destruct (d_stat r); [exact IV|congruence| |exact IV].
      destruct IV as (W & c & ks & ss & CU & K & S & LC & LF & Z & CO & NE). split; [exact W|]. exists c, ks, ss.
      repeat (split; [assumption|]). intros Q. destruct (NE Q) as [N|(x & X1 & X2)]; [left; exact N|right].
      destruct (b_init b); [exists (length (l_outs s)); split; [reflexivity|lia]|exists x; auto].
  - (* push *)
    injection G as <-. assert (PC := i_pc s V). rewrite P in PC. destruct PC as (WS & NI). assert (LB := i_base s V).
    constructor.
    + exact (i_bad s V).
    + cbn [with_pc l_day l_base l_outs]. rewrite app_length. lia.
    + exact (i_nostop s V).
    + cbn [with_pc l_stat]. congruence.
    + exact (i_keys s V).
    + exact (i_sdbs s V).
    + intros W. destruct (i_dict s V WS) as (ks & ss & K & S & A & B). exists ks, ss. repeat (split; [assumption|]).
      split; [|discriminate]. cbn [with_pc l_day l_outs]. intros i x L E. destruct (Nat.ltb_spec i (length (l_outs s))).
      * rewrite nth_error_app1 in E by assumption. apply (A i x L E).
      * rewrite nth_error_app2 in E by assumption. destruct (i - length (l_outs s))%nat as [|k]; [|destruct k; discriminate].
        cbn in E. injection E as <-. apply B. rewrite P. reflexivity.
    + cbn [with_pc l_near l_outs l_day l_pc]. split.
      * intros j J ST. destruct (Nat.ltb_spec j (length (l_outs s))) as [L|L].
        -- apply (proj1 (starts_app _ b j L)) in ST. exact (proj1 (i_near s V) j J ST).
        -- destruct ST as (x & X & XI). rewrite nth_error_app2 in X by assumption.
           destruct (j - length (l_outs s))%nat as [|k] eqn:JK; [|destruct k; discriminate]. cbn in X. injection X as <-.
           exists (length (l_outs s)). split; [apply (i_near' s V b P XI)|lia].
      * intros x X. destruct (proj2 (i_near s V) x X) as (A & B & C). rewrite app_length. cbn [length]. split; [lia|]. split; [intros; lia|].
        intros _. destruct (Nat.eq_dec x (length (l_outs s))) as [->|NE]; [|apply starts_app; [lia|apply C; lia]].
        exists b. rewrite nth_error_app2 by lia. rewrite Nat.sub_diag. split; [reflexivity|].
        destruct (B eq_refl) as (b' & Q & BI). rewrite P in Q. injection Q as <-. exact BI.
    + discriminate.
    + exact (i_cids s V).
    + intros _. apply (i_ncur s V). rewrite P. reflexivity.
    + exact I.
    + intros r I. apply push_rinv; auto.
  - (* stop *)
    assert (PC := i_pc s V). rewrite P in PC. destruct PC as (QS & IC).
    assert (NPP : forall x, l_pc s <> PPush x) by (rewrite P; discriminate).
    destruct cs as [|c cs].
    + injection G as <-. apply (move_inv s (l_rds s) PIdle 0); auto.
      * discriminate.
      * discriminate.
      * intros _. lia.
      * exact I.
      * intros r I. apply rinv_move; [rewrite P; reflexivity|apply (i_rd s V); exact I].
    + destruct (find_rd s c) as [r|] eqn:FR; [|discriminate]. destruct (find_some _ _ _ FR) as (IR & CR).
      assert (IV := i_rd s V r IR).
      destruct (is_stat (d_stat r) StStop) eqn:SI; injection G as <-.
      * apply (move_inv s (l_rds s) (PStop cs) (l_ncur s)); auto; try discriminate.
        -- split; [exact QS|]. intros x X. apply IC. right. exact X.
        -- intros x I. apply rinv_move; [rewrite P; reflexivity|apply (i_rd s V); exact I].
      * apply (move_inv s (map (upd c (end1 s r)) (l_rds s)) (PStop1 c cs) (l_ncur s)); auto; try discriminate.
        -- apply map_upd_cid. exact CR.
        -- split.
           { apply quiet_of. intros x n I E. cbn [move with_ncur with_pc with_rds l_rds l_outs] in *.
             destruct (in_upd _ _ _ _ I) as [->|(J & NE)]; [apply (quiet_in s r n QS IR E)|apply (quiet_in s x n QS J E)]. }
           unfold cids. cbn [move with_ncur with_pc with_rds l_rds]. rewrite map_upd_cid by exact CR. exact IC.
        -- intros x I. destruct (in_upd _ _ _ _ I) as [->|(J & NE)].
           ++ unfold rinv in *. cbn [move with_ncur with_pc with_rds l_pc l_stat l_outs l_keys l_sdbs l_base l_near l_day l_date phase end1 say d_cid d_stat d_cur d_from d_zs d_isinit d_in].
              rewrite P in IV. cbn [phase] in IV. rewrite CR, Z.eqb_refl. destruct (d_stat r) eqn:DS; try discriminate SI.
              ** exact IV.
              ** destruct IV as (D & CU). rewrite D. split; [reflexivity|exact CU].
              ** destruct IV as (W & n & ks & ss & CU & K & S & LC & LF & Z & CO & NE). split; [exact W|]. exists n, ks, ss.
                 repeat (split; [assumption|]). split; [intros; apply Z; [assumption|discriminate]|]. split; [|exact NE].
                 intros DZ AS. apply end1_core; [reflexivity|]. apply CO; assumption.
           ++ apply rinv_move; [rewrite P; cbn [phase]; rewrite (proj2 (Z.eqb_neq c (d_cid x))) by congruence; reflexivity|apply (i_rd s V); exact J].
  - (* packer and unpacker go *)
    assert (PC := i_pc s V). rewrite P in PC. destruct PC as (QS & IC).
    assert (NPP : forall x, l_pc s <> PPush x) by (rewrite P; discriminate).
    destruct (find_rd s c) as [r|] eqn:FR; [|discriminate]. destruct (find_some _ _ _ FR) as (IR & CR). injection G as <-.
    assert (IV := i_rd s V r IR).
    apply (move_inv s (map (upd c (end2 r)) (l_rds s)) (PStop2 c cs) (l_ncur s)); auto; try discriminate.
    + apply map_upd_cid. exact CR.
    + split.
      { apply quiet_of. intros x n I E. cbn [move with_ncur with_pc with_rds l_rds l_outs] in *.
        destruct (in_upd _ _ _ _ I) as [->|(J & NE)]; [apply (quiet_in s r n QS IR E)|apply (quiet_in s x n QS J E)]. }
      unfold cids. cbn [move with_ncur with_pc with_rds l_rds]. rewrite map_upd_cid by exact CR. exact IC.
    + intros x I. destruct (in_upd _ _ _ _ I) as [->|(J & NE)].
      * unfold rinv in *. cbn [move with_ncur with_pc with_rds l_pc l_stat l_outs l_keys l_sdbs l_base l_near l_day l_date phase end2 d_cid d_stat d_cur d_from d_isinit d_in].
        rewrite P in IV. cbn [phase] in IV. rewrite CR, Z.eqb_refl in *. destruct (d_stat r) eqn:DS.
        -- exact IV.
        -- exact IV.
        -- destruct IV as (W & n & ks & ss & CU & K & S & LC & LF & Z & CO & NE). split; [exact W|]. exists n, ks, ss.
           repeat (split; [assumption|]). split; [intros _ Q; exfalso; apply Q; reflexivity|]. split; [|exact NE].
           intros DZ AS. apply end2_core. apply CO; assumption.
        -- destruct IV as (Q & _). discriminate.
      * apply rinv_move; [rewrite P; cbn [phase]; rewrite (proj2 (Z.eqb_neq c (d_cid x))) by congruence; reflexivity|apply (i_rd s V); exact J].
  - (* the thread ends *)
    assert (PC := i_pc s V). rewrite P in PC. destruct PC as (QS & IC).
    assert (NPP : forall x, l_pc s <> PPush x) by (rewrite P; discriminate).
    destruct (find_rd s c) as [r|] eqn:FR; [|discriminate]. destruct (find_some _ _ _ FR) as (IR & CR). injection G as <-.
    assert (IV := i_rd s V r IR).
    apply (move_inv s (map (upd c (end3 r)) (l_rds s)) (PStop cs) (l_ncur s)); auto; try discriminate.
    + apply map_upd_cid. exact CR.
    + split.
      { apply quiet_of. intros x n I E. cbn [move with_ncur with_pc with_rds l_rds l_outs] in *.
        destruct (in_upd _ _ _ _ I) as [->|(J & NE)]; [discriminate E|apply (quiet_in s x n QS J E)]. }
      unfold cids. cbn [move with_ncur with_pc with_rds l_rds]. rewrite map_upd_cid by exact CR. intros x X. apply IC. right. exact X.
    + intros x I. destruct (in_upd _ _ _ _ I) as [->|(J & NE)].
      * unfold rinv in *. cbn [move with_ncur with_pc with_rds l_pc l_stat l_outs l_keys l_sdbs l_base l_near l_day l_date phase end3 d_cid d_stat d_cur d_from d_isinit d_in].
        rewrite P in IV. cbn [phase] in IV. rewrite CR, Z.eqb_refl in *. split; [reflexivity|]. split; [reflexivity|]. destruct (d_stat r) eqn:DS.
        -- destruct IV.
        -- left. exact (proj1 IV).
        -- right. destruct IV as (W & n & ks & ss & CU & K & S & LC & LF & Z & CO & NE). split; [exact W|]. exists n, ks, ss.
           repeat (split; [assumption|]). exact CO.
        -- destruct IV as (Q & _). discriminate.
      * apply rinv_move; [rewrite P; cbn [phase]; rewrite (proj2 (Z.eqb_neq c (d_cid x))) by congruence; reflexivity|apply (i_rd s V); exact J].
Qed.

(** * runs *)
(** names change only before the day's first block; the day starts and ends when every open
    subscriber has read all blocks; blocks hold numbers of known keys and tables *)
Definition calm (s : lst) (a : lact) : Prop :=
  match a with
  | ASetKeys ks => good_names ks /\ l_stat s <> StWork
  | ASetSdbs ss => good_names ss /\ l_stat s <> StWork
  | AStart _ | AStop => quiet s = true
  | AZpub b => forall ks ss, l_keys s = Some ks -> l_sdbs s = Some ss -> valid ks ss b
  | _ => True
  end.
Fixpoint calm_run (s : lst) (l : list lact) : Prop :=
  match l with
  | [] => True
  | a :: l' => calm s a /\ match lstep s a with Some s' => calm_run s' l' | None => True end
  end.

Lemma linv0 d : linv (l0 d).
Proof.
  constructor; cbn; try discriminate; auto.
  - split; [|discriminate]. intros j _ (b & B & _). destruct j; discriminate.
  - constructor.
  - intros r [].
Qed.
Lemma idle_phase s x : l_pc s = PIdle -> phase (l_pc s) x = O.
Proof. intros ->. reflexivity. Qed.

Lemma set_inv s k t : linv s -> l_pc s = PIdle -> l_stat s <> StWork ->
  (forall ks, k = Some ks -> good_names ks) -> (forall ss, t = Some ss -> good_names ss) ->
  linv (mkl (l_stat s) k t (l_date s) (l_outs s) (l_base s) (l_near s) (l_rds s) (l_ncur s) (l_pc s) (l_day s) (l_bad s)).
Proof.
  intros V P NW GK GS. constructor; cbn [l_stat l_keys l_sdbs l_date l_outs l_base l_near l_rds l_ncur l_pc l_day l_bad].
  - exact (i_bad s V).
  - exact (i_base s V).
  - exact (i_nostop s V).
  - exact (i_early s V).
  - exact GK.
  - exact GS.
  - congruence.
  - exact (i_near s V).
  - exact (i_near' s V).
  - exact (i_cids s V).
  - exact (i_ncur s V).
  - rewrite P. exact I.
  - intros r I. assert (IV := i_rd s V r I). unfold rinv in *. cbn [l_stat l_keys l_sdbs l_date l_outs l_base l_near l_rds l_ncur l_pc l_day l_bad].
    destruct (d_stat r); [exact IV|exact IV|destruct IV; congruence|]. destruct IV as (A & B & [C|(C & _)]); [auto|congruence].
Qed.
Lemma start_inv s d : linv s -> l_pc s = PIdle -> quiet s = true -> linv (do_start s d).
Proof.
  intros V P Q. constructor; cbn [do_start l_stat l_keys l_sdbs l_date l_outs l_base l_near l_rds l_ncur l_pc l_day l_bad].
  - exact (i_bad s V).
  - lia.
  - discriminate.
  - auto.
  - exact (i_keys s V).
  - exact (i_sdbs s V).
  - discriminate.
  - split; [|discriminate]. intros j J (b & B & _). assert (j < length (l_outs s))%nat by (apply nth_error_Some; congruence). lia.
  - rewrite P. discriminate.
  - unfold cids. cbn [do_start l_rds]. rewrite map_map. exact (i_cids s V).
  - lia.
  - rewrite P. exact I.
  - intros r I. apply in_map_iff in I. destruct I as (r0 & <- & I). unfold rinv. cbn [do_start start_rd d_stat d_in d_cur d_cid l_pc l_outs l_day].
    rewrite P. cbn [phase Nat.ltb Nat.leb]. split; [reflexivity|]. destruct (d_cur r0) as [c|] eqn:C; [|left; reflexivity].
    right. rewrite (quiet_in s r0 c Q I C). auto.
Qed.
Lemma zpub_inv s b : linv s -> l_pc s = PIdle -> (forall ks ss, l_keys s = Some ks -> l_sdbs s = Some ss -> valid ks ss b) -> linv (do_zpub s b).
Proof.
  intros V P VB. unfold do_zpub.
  assert (GO : forall ks ss, l_keys s = Some ks -> l_sdbs s = Some ss -> (l_stat s = StInit \/ l_stat s = StWork) ->
    linv (with_pc (mkl StWork (l_keys s) (l_sdbs s) (l_date s) (l_outs s) (l_base s) (l_near s) (l_rds s) (l_ncur s) (l_pc s) (l_day s) (l_bad s))
      (PBegin (if (length (l_rds s) <=? l_ncur s)%nat then [] else map d_cid (l_rds s)) b))).
  { intros ks ss K S ST. constructor; cbn [with_pc l_stat l_keys l_sdbs l_date l_outs l_base l_near l_rds l_ncur l_pc l_day l_bad].
    - exact (i_bad s V).
    - exact (i_base s V).
    - discriminate.
    - congruence.
    - exact (i_keys s V).
    - exact (i_sdbs s V).
    - intros _. exists ks, ss. split; [exact K|]. split; [exact S|]. split.
      + intros i x L E. destruct ST as [ST|ST].
        * assert (Q := i_early s V). rewrite ST in Q. specialize (Q ltac:(discriminate)).
          assert (i < length (l_outs s))%nat by (apply nth_error_Some; congruence). lia.
        * destruct (i_dict s V ST) as (ks' & ss' & K' & S' & A & _). assert (ks' = ks) by congruence. assert (ss' = ss) by congruence. subst. apply (A i x L E).
      + cbn [pub_pc]. intros x Q. injection Q as <-. apply VB; assumption.
    - split; [exact (proj1 (i_near s V))|]. intros x X. destruct (proj2 (i_near s V) x X) as (A & B & C). split; [exact A|]. split; [|exact C].
      intros Q. destruct (B Q) as (y & Y & _). congruence.
    - discriminate.
    - exact (i_cids s V).
    - intros _. apply (i_ncur s V). rewrite P. reflexivity.
    - split; [reflexivity|]. destruct (Nat.leb_spec (length (l_rds s)) (l_ncur s)) as [L|L].
      + split; [intros x []|]. intros r I Q. exfalso. assert (A := nwork_less _ _ I Q).
        assert (B := i_ncur s V). rewrite P in B. specialize (B eq_refl). lia.
      + split; [intros x X; exact X|]. intros r I _. apply in_map. exact I.
    - intros r I. assert (IV := i_rd s V r I). unfold rinv in *. cbn [with_pc l_stat l_keys l_sdbs l_date l_outs l_base l_near l_rds l_ncur l_pc l_day l_bad phase].
      rewrite P in IV. cbn [phase] in IV. destruct (d_stat r); [exact IV|exact IV| |].
      + destruct IV as (_ & IV). split; [reflexivity|exact IV].
      + destruct IV as (A & B & [C|(_ & C)]); auto. }
  destruct (l_stat s) eqn:ST; auto.
  - destruct (l_keys s) as [ks|] eqn:K; [|exact V]. destruct (l_sdbs s) as [ss|] eqn:S; [|exact V]. apply (GO ks ss); auto.
  - destruct (i_dict s V ST) as (ks & ss & K & S & _). destruct (l_keys s) as [ks'|] eqn:K'; [|discriminate]. destruct (l_sdbs s) as [ss'|] eqn:S'; [|discriminate].
    apply (GO ks' ss'); auto.
Qed.
Lemma sub_inv s c kpat spat zip head : linv s -> l_pc s = PIdle -> linv (do_sub s c kpat spat zip head).
Proof.
  intros V P. unfold do_sub. destruct kpat as [|k0 kp]; [exact V|]. destruct spat as [|s0 sp]; [exact V|].
  destruct (is_stat (l_stat s) StStop); [exact V|]. destruct (find_rd s c) as [r|] eqn:FR; [exact V|].
  set (r2 := mkrd c (k0 :: kp) (s0 :: sp) zip head StInit false None None 0 []).
  constructor; cbn [with_rds l_stat l_keys l_sdbs l_date l_outs l_base l_near l_rds l_ncur l_pc l_day l_bad].
  - exact (i_bad s V).
  - exact (i_base s V).
  - exact (i_nostop s V).
  - exact (i_early s V).
  - exact (i_keys s V).
  - exact (i_sdbs s V).
  - exact (i_dict s V).
  - exact (i_near s V).
  - exact (i_near' s V).
  - unfold cids. cbn [with_rds l_rds]. rewrite map_app. apply NoDup_snoc; [exact (i_cids s V)|]. apply find_none. exact FR.
  - intros Q. assert (N := i_ncur s V Q). unfold nwork in *. rewrite filter_app, app_length. lia.
  - rewrite P. exact I.
  - intros r I. apply in_app_or in I. destruct I as [I|[<-|[]]].
    + apply (rinv_frame s); try reflexivity. apply (i_rd s V). exact I.
    + unfold rinv. cbn [r2 d_stat d_in d_cur with_rds l_pc d_cid]. rewrite P. cbn. auto.
Qed.
Lemma nwork_del c l : NoDup (map d_cid l) -> (nwork l <= S (nwork (filter (fun r => negb (d_cid r =? c)%Z) l)))%nat.
Proof.
  induction l as [|x l IH]; intros N; [cbn; lia|]. cbn in N. inversion N as [|? ? NI N']; subst. specialize (IH N').
  unfold nwork in *. cbn [filter]. destruct (Z.eqb_spec (d_cid x) c) as [E|E]; cbn [negb].
  - assert (Q : filter (fun r => negb (d_cid r =? c)) l = l).
    { apply L_sub.filter_all. intros y J. destruct (Z.eqb_spec (d_cid y) c) as [E'|]; [|reflexivity]. exfalso. apply NI. rewrite E, <- E'. apply in_map. exact J. }
    rewrite Q. destruct (is_stat (d_stat x) StWork); cbn [length]; lia.
  - cbn [filter]. destruct (is_stat (d_stat x) StWork); cbn [length]; lia.
Qed.
Lemma nodup_filter_map {A} (f : A -> bool) (g : A -> Z) l : NoDup (map g l) -> NoDup (map g (filter f l)).
Proof.
  induction l as [|x l IH]; intros N; [constructor|]. cbn in N. inversion N as [|? ? NI N']; subst. cbn [filter].
  destruct (f x); [|apply IH; exact N']. cbn [map]. constructor; [|apply IH; exact N'].
  intros Q. apply NI. apply in_map_iff in Q. destruct Q as (y & <- & Y). apply filter_In in Y. apply in_map. tauto.
Qed.
Lemma unsub_inv s c : linv s -> l_pc s = PIdle -> linv (do_unsub s c).
Proof.
  intros V P. unfold do_unsub. destruct (find_rd s c) as [r|] eqn:FR; [|exact V].
  constructor; cbn [with_ncur with_rds l_stat l_keys l_sdbs l_date l_outs l_base l_near l_rds l_ncur l_pc l_day l_bad].
  - exact (i_bad s V).
  - exact (i_base s V).
  - exact (i_nostop s V).
  - exact (i_early s V).
  - exact (i_keys s V).
  - exact (i_sdbs s V).
  - exact (i_dict s V).
  - exact (i_near s V).
  - exact (i_near' s V).
  - unfold cids. cbn [with_ncur with_rds l_rds]. apply nodup_filter_map. exact (i_cids s V).
  - intros Q. assert (N := i_ncur s V Q). assert (M := nwork_del c (l_rds s) (i_cids s V)). lia.
  - rewrite P. exact I.
  - intros x I. apply filter_In in I. destruct I as (I & _). apply (rinv_frame s); try reflexivity. apply (i_rd s V). exact I.
Qed.
Lemma trim_inv s n s' : linv s -> do_trim s n = Some s' -> linv s'.
Proof.
  intros V T. unfold do_trim in T. destruct (_ && _)%bool eqn:C in T; [|discriminate]. injection T as <-.
  apply andb_true_iff in C. destruct C as (C & F). apply andb_true_iff in C. destruct C as (C1 & C2). rewrite forallb_forall in F.
  assert (LB := i_base s V).
  constructor; cbn [l_stat l_keys l_sdbs l_date l_outs l_base l_near l_rds l_ncur l_pc l_day l_bad].
  - exact (i_bad s V).
  - lia.
  - exact (i_nostop s V).
  - exact (i_early s V).
  - exact (i_keys s V).
  - exact (i_sdbs s V).
  - exact (i_dict s V).
  - exact (i_near s V).
  - exact (i_near' s V).
  - exact (i_cids s V).
  - exact (i_ncur s V).
  - exact (i_pc s V).
  - intros r I. assert (IV := i_rd s V r I). specialize (F r I). unfold rinv in *.
    cbn [l_stat l_keys l_sdbs l_date l_outs l_base l_near l_rds l_ncur l_pc l_day l_bad].
    destruct (d_stat r); [exact IV|exact IV| |exact IV].
    destruct IV as (W & c & ks & ss & CU & K & S & LC & IV). split; [exact W|]. exists c, ks, ss. rewrite CU in F.
    repeat (split; [assumption|]). split; [lia|exact IV].
Qed.
Lemma lstep_inv s a s' : linv s -> calm s a -> lstep s a = Some s' -> linv s'.
Proof.
  intros V C E. destruct a; cbn [lstep] in E; try (destruct (l_pc s) eqn:P; try discriminate E; injection E as <-; try rewrite <- P); cbn [calm] in C.
  - apply set_inv; auto; [tauto|intros ks' Q; injection Q as <-; tauto|exact (i_sdbs s V)].
  - apply set_inv; auto; [tauto|exact (i_keys s V)|intros ss' Q; injection Q as <-; tauto].
  - apply start_inv; auto.
  - assert (GO : linv (with_pc s (PStop (map d_cid (l_rds s))))).
    { apply (move_inv s (l_rds s) (PStop (map d_cid (l_rds s))) (l_ncur s)); auto; try discriminate.
      - rewrite P. discriminate.
      - split; [exact C|]. intros x X. exact X.
      - intros r I. apply rinv_move; [rewrite P; reflexivity|apply (i_rd s V); exact I]. }
    destruct (l_stat s); auto.
  - apply zpub_inv; auto.
  - apply sub_inv; auto.
  - apply unsub_inv; auto.
  - apply (go_inv s); assumption.
  - apply (read_inv s c); assumption.
  - apply (trim_inv s n); assumption.
Qed.
Lemma lrun_inv l : forall s s', linv s -> calm_run s l -> lrun s l = Some s' -> linv s'.
Proof.
  induction l as [|a l IH]; intros s s' V C E; cbn [lrun calm_run] in *; [injection E as <-; exact V|].
  destruct C as (CA & CL). destruct (lstep s a) as [s1|] eqn:ST; [|discriminate]. apply (IH s1); auto. apply (lstep_inv s a); assumption.
Qed.

(** * from places in the list to places in the day *)
Lemma starts_skip outs k j : starts_at (skipn k outs) j <-> starts_at outs (k + j).
Proof. unfold starts_at. rewrite nth_skipn. tauto. Qed.
Lemma skip2 {A} n : forall k (l : list A), skipn n (skipn k l) = skipn (k + n) l.
Proof. induction k as [|k IH]; intros l; [reflexivity|]. destruct l; [destruct n; reflexivity|]. cbn [Nat.add skipn]. apply IH. Qed.
Lemma range_skip k n m outs : range n m (skipn k outs) = range (k + n) (k + m) outs.
Proof. unfold range. rewrite skip2. replace (k + m - (k + n))%nat with (m - n)%nat by lia. reflexivity. Qed.
Lemma core_stream outs keys sdbs d r c closed day caught : core outs keys sdbs d r c closed -> (day <= d_from r)%nat ->
  (caught = true -> c = length outs /\ (d_isinit r = false -> forall j, (d_from r <= j < c)%nat -> ~ starts_at outs j)) ->
  stream_ok (d_kpat r) (d_spat r) (d_head r) d keys sdbs (d_from r - day) (skipn day outs) closed caught (d_in r).
Proof.
  intros (n & data & I & all & got & D & L1 & L2 & F & ZF & A & G & EG & HH & WD) LD CA. cbn zeta in *.
  eexists _, _, data, (n - day)%nat, (c - day)%nat, all, got. split; [exact D|]. split; [lia|].
  rewrite skipn_length. split; [lia|].
  split. { intros L. rewrite starts_skip. replace (day + (n - day))%nat with n by lia. destruct (d_isinit r); [tauto|lia]. }
  split; [exact F|]. rewrite range_skip. replace (day + (n - day))%nat with n by lia. replace (day + (c - day))%nat with c by lia.
  split; [exact A|]. split; [exact G|]. split; [exact EG|].
  split. { intros H j J. rewrite starts_skip. apply HH; [exact H|lia]. }
  intros Q. destruct (CA Q) as (C1 & C2). split; [lia|]. intros NM j J ST. rewrite starts_skip in ST.
  assert (LJ : (day + j < length outs)%nat) by (destruct ST as (b & B & _); apply nth_error_Some; congruence).
  destruct (d_isinit r); [lia|]. revert ST. apply C2; [reflexivity|lia].
Qed.
