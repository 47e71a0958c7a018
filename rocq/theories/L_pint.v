(** Proofs about the bounded ranking list. *)
From Verif Require Import Base S_list S_lists M_list M_lists L_list L_sortlist.
From Coq Require Import ZifyBool ZifyNat Sorted.

Section P.
Context {V : Type}.
Variable asc : bool.
Notation before := (before asc).
Notation sorted := (StronglySorted before).

Lemma better_spec a b : better asc a b = true <-> before a b.
Proof. unfold better, L_sortlist.before. destruct asc; lia. Qed.

(** a sorted list seen from a key *)
Lemma trisect (kvs : list (Z * V)) key : sorted (map fst kvs) ->
  exists p m q, kvs = p ++ m ++ q /\ Forall (fun kv => before (fst kv) key) p /\ Forall (fun kv => before key (fst kv)) q
    /\ (m = [] \/ exists w, m = [(key, w)]).
Proof.
  induction kvs as [|[k w] kvs IH]; cbn [map fst]; intros S; [exists [], [], []; auto|].
  inversion S as [|? ? S' F]; subst.
  destruct (before_tri asc k key) as [B|[->|B]].
  - destruct (IH S') as (p & m & q & -> & Fp & Fq & Hm). exists ((k, w) :: p), m, q. auto.
  - exists [], [(key, w)], kvs. repeat split; auto; [|right; eauto]. rewrite Forall_map in F. exact F.
  - exists [], [], ((k, w) :: kvs). repeat split; auto. constructor; [assumption|].
    rewrite Forall_map in F. eapply Forall_impl; [|exact F]. cbn. intros a Ha. eapply before_trans; eassumption.
Qed.

Lemma rank_insert_at p m q key (v : V) :
  Forall (fun kv => before (fst kv) key) p -> Forall (fun kv => before key (fst kv)) q ->
  (m = [] \/ exists w, m = [(key, w)]) -> rank_insert asc key v (p ++ m ++ q) = p ++ (key, v) :: q.
Proof.
  intros Fp Fq Hm. induction Fp as [|[k w] p B Fp IH]; cbn [app rank_insert].
  - destruct Hm as [->|(w & ->)]; cbn [app rank_insert].
    + destruct q as [|[k w] q]; cbn [rank_insert]; [reflexivity|]. inversion Fq as [|? ? B F]; subst. cbn [fst] in B.
      destruct (Z.eqb_spec k key) as [->|]; [exfalso; apply (before_irr asc key B)|].
      apply better_spec in B. rewrite B. reflexivity.
    + rewrite Z.eqb_refl. reflexivity.
  - cbn [fst] in B. destruct (Z.eqb_spec k key) as [->|]; [exfalso; apply (before_irr asc key B)|].
    destruct (better asc key k) eqn:E; [|rewrite IH; reflexivity].
    apply better_spec in E. exfalso. apply (before_irr asc key). eapply before_trans; eassumption.
Qed.

Lemma test_spec k key : (if asc then k >? key else k <? key) = true <-> before key k.
Proof. unfold L_sortlist.before. destruct asc; lia. Qed.

Lemma scan_front p r key : Forall (fun k => before k key) p -> forall i f,
  pl_scan asc (p ++ r) key i f = pl_scan asc r key (i + length p) f.
Proof.
  intros F. induction F as [|k p B F IH]; intros i f; cbn [app pl_scan length].
  - rewrite Nat.add_0_r. reflexivity.
  - destruct (Z.eqb_spec k key) as [->|]; [exfalso; apply (before_irr asc key B)|].
    destruct (if asc then k >? key else k <? key) eqn:E.
    + apply test_spec in E. exfalso. apply (before_irr asc key). eapply before_trans; eassumption.
    + rewrite IH. f_equal. lia.
Qed.

Lemma scan_back q key i f : Forall (before key) q ->
  pl_scan asc q key i f = (f, match q with [] => None | _ => Some i end).
Proof.
  intros F. destruct q as [|k q]; cbn [pl_scan]; [reflexivity|]. inversion F as [|? ? B F']; subst.
  destruct (Z.eqb_spec k key) as [->|]; [exfalso; apply (before_irr asc key B)|].
  apply test_spec in B. rewrite B. reflexivity.
Qed.

Definition prep (n : nat) (l : plist V) (kvs : list (Z * V)) : Prop :=
  length (pkeys l) = n /\ length (pvals l) = n /\ pcount l = length kvs /\ sorted (map fst kvs)
  /\ exists gk gv, pkeys l = map fst kvs ++ gk /\ pvals l = map snd kvs ++ gv.

Lemma prep_keys n l kvs : prep n l kvs -> aget (pkeys l) 0 (pcount l) = Some (map fst kvs).
Proof.
  intros (_ & _ & Hc & _ & gk & gv & Hk & _). apply (aget_at _ [] _ gk); auto. rewrite map_length. assumption.
Qed.

(** inserting in an array with room, or dropping the last element *)
Lemma array_insert {B} (f : Z * V -> B) arr p q slack k x :
  arr = map f p ++ map f q ++ slack -> (k <= length q)%nat -> (k < length q + length slack)%nat ->
  exists a1 s', amove arr (length p + 1) (length p) k = Some a1 /\
    aput a1 (length p) [f x] = Some (map f (p ++ x :: firstn k q) ++ s') /\ length (map f (p ++ x :: firstn k q) ++ s') = length arr.
Proof.
  intros E Hk Hs.
  destruct (split_at (map f q ++ slack) k) as (m & r & Er & Lm); [rewrite app_length, map_length; lia|].
  destruct r as [|g r].
  { apply (f_equal (@length _)) in Er. rewrite !app_length, map_length in Er. cbn in Er. lia. }
  destruct (open_hole arr (map f p) m [g] r (length p + 1) (length p) k) as (h & E1 & Lh).
  { rewrite E, Er. reflexivity. } { rewrite map_length. reflexivity. } { lia. } { rewrite map_length. reflexivity. }
  exists (map f p ++ h ++ m ++ r), r. split; [exact E1|].
  assert (Em : m = map f (firstn k q)).
  { rewrite <- firstn_map. rewrite <- (firstn_at m (g :: r) k), <- Er by lia.
    rewrite firstn_app, map_length. replace (k - length q)%nat with 0%nat by lia. cbn. apply app_nil_r. }
  rewrite (aput_at _ (map f p) h (m ++ r) [f x]) by (rewrite ?map_length; auto).
  rewrite map_app. cbn [map]. rewrite <- Em. rewrite <- !app_assoc. cbn [app]. split; [reflexivity|].
  rewrite E, Er, !app_length. cbn [length]. rewrite !app_length. cbn [length]. lia.
Qed.

Lemma firstn_mid {B} (p q : list B) x n : (length p < n)%nat ->
  firstn n (p ++ x :: q) = p ++ x :: firstn (n - length p - 1) q.
Proof.
  intros H. rewrite firstn_app, firstn_all2 by lia. f_equal.
  destruct (n - length p)%nat as [|k] eqn:E; [lia|]. cbn [firstn]. rewrite Nat.sub_succ, Nat.sub_0_r. reflexivity.
Qed.

Lemma sorted_insert p m q key (v : V) : sorted (map fst (p ++ m ++ q)) ->
  Forall (fun kv => before (fst kv) key) p -> Forall (fun kv => before key (fst kv)) q -> sorted (map fst (p ++ (key, v) :: q)).
Proof.
  intros S Fp Fq. rewrite !map_app in *. cbn [map fst]. apply sorted_app_inv in S. destruct S as (S1 & S2 & S3).
  apply sorted_app_inv in S2. destruct S2 as (S2 & S4 & S5).
  rewrite Forall_forall in Fp. apply sorted_app; [assumption| |].
  - constructor; [assumption|]. rewrite Forall_map. assumption.
  - intros a b Ha [<-|Hb].
    + apply in_map_iff in Ha. destruct Ha as (kv & <- & Ha). apply Fp. assumption.
    + apply S3; [assumption|]. apply in_or_app. right. assumption.
Qed.

Lemma sorted_firstn n ks : sorted ks -> sorted (firstn n ks).
Proof. intros S. rewrite <- (firstn_skipn n ks) in S. apply sorted_app_inv in S. tauto. Qed.

Lemma set_prep n l kvs key v : prep n l kvs ->
  exists l' z, pl_set asc l key v = Some (l', z) /\ prep n l' (firstn n (rank_insert asc key v kvs)).
Proof.
  intros H. unfold pl_set. rewrite (prep_keys n l kvs H). destruct H as (Ln & Lv & Hc & S & gk & gv & Hk & Hv).
  assert (Lk := Ln). rewrite Hk, app_length, map_length in Lk.
  assert (Lv' := Lv). rewrite Hv, app_length, map_length in Lv'.
  destruct (trisect kvs key S) as (p & m & q & E & Fp & Fq & Hm).
  assert (S' := S). rewrite E in S'. apply (sorted_insert p m q key v) in S'; auto.
  rewrite E, (rank_insert_at p m q key v Fp Fq Hm).
  rewrite !map_app, scan_front by (rewrite Forall_map; assumption). rewrite map_length, Nat.add_0_l.
  destruct Hm as [->|(w & ->)]; cbn [map app pl_scan fst] in *.
  - rewrite scan_back by (rewrite Forall_map; assumption).
    assert (El : length kvs = (length p + length q)%nat) by (rewrite E, app_length; reflexivity).
    destruct q as [|kv q]; cbn [map].
    + rewrite app_nil_r in E. subst p. rewrite Hc, Ln. destruct (Nat.ltb_spec (length kvs) n).
      * destruct gk as [|g gk]; [cbn in Lk; lia|]. destruct gv as [|g' gv]; [cbn in Lv'; lia|].
        rewrite (aput_at _ (map fst kvs) [g] gk [key]) by (rewrite ?map_length; auto).
        rewrite (aput_at _ (map snd kvs) [g'] gv [v]) by (rewrite ?map_length; auto).
        eexists _, _. split; [reflexivity|]. rewrite firstn_all2 by (rewrite app_length; cbn; lia).
        split; [|split; [|split; [|split]]]; cbn [pkeys pvals pcount].
        -- rewrite !app_length, map_length in *. cbn [length] in *. lia.
        -- rewrite !app_length, map_length in *. cbn [length] in *. lia.
        -- rewrite app_length. cbn. lia.
        -- assumption.
        -- exists gk, gv. rewrite !map_app, <- !app_assoc. auto.
      * eexists _, _. split; [reflexivity|]. rewrite firstn_app, firstn_all2 by lia.
        replace (n - length kvs)%nat with 0%nat by lia. cbn [firstn]. rewrite app_nil_r.
        split; [|split; [|split; [|split]]]; auto. exists gk, gv. auto.
    + set (q0 := kv :: q) in *. assert (Lq : (0 < length q0)%nat) by (cbn; lia).
      rewrite Ln, Hc. set (k := ((if Nat.leb n (length kvs) then n - 1 else length kvs) - length p)%nat).
      assert (Hkk : (k <= length q0 /\ k < length q0 + length gk /\ k = Nat.min (length q0) (n - length p - 1))%nat).
      { subst k. destruct (Nat.leb_spec n (length kvs)); lia. }
      destruct (array_insert fst (pkeys l) p q0 gk k (key, v)) as (a1 & s1 & E1 & E2 & E3).
      { rewrite Hk, E, map_app, <- app_assoc. reflexivity. } { lia. } { lia. }
      destruct (array_insert snd (pvals l) p q0 gv k (key, v)) as (a2 & s2 & E4 & E5 & E6).
      { rewrite Hv, E, map_app, <- app_assoc. reflexivity. } { lia. } { lia. }
      rewrite E1, E4. cbn [fst snd] in E2, E5. rewrite E2, E5.
      eexists _, _. split; [reflexivity|]. rewrite firstn_mid by lia.
      replace (firstn (n - length p - 1) q0) with (firstn k q0).
      2:{ destruct (Nat.le_gt_cases (length q0) (n - length p - 1)).
          - rewrite !firstn_all2 by lia. reflexivity.
          - f_equal. lia. }
      split; [|split; [|split; [|split]]]; cbn [pkeys pvals pcount]; try lia.
      * rewrite app_length. cbn [length]. rewrite firstn_length. destruct (Nat.ltb_spec (length kvs) n); lia.
      * rewrite <- (firstn_at (p ++ (key, v) :: firstn k q0) (skipn k q0) (length (p ++ (key, v) :: firstn k q0)) eq_refl).
        rewrite <- app_assoc. cbn [app]. rewrite firstn_skipn. rewrite <- firstn_map. apply sorted_firstn. assumption.
      * exists s1, s2. auto.
  - rewrite Z.eqb_refl. replace (if asc then key >? key else key <? key) with false by (destruct asc; lia).
    rewrite scan_back by (rewrite Forall_map; assumption).
    rewrite (aput_at _ (map fst p) [key] (map fst q ++ gk) [key]) by (rewrite ?Hk, ?E, ?map_app, ?map_length, <- ?app_assoc; auto).
    rewrite (aput_at _ (map snd p) [w] (map snd q ++ gv) [v]) by (rewrite ?Hv, ?E, ?map_app, ?map_length, <- ?app_assoc; auto).
    assert (El : length kvs = (length p + Datatypes.S (length q))%nat) by (rewrite E, app_length; reflexivity).
    eexists _, _. split; [reflexivity|]. rewrite firstn_all2 by (rewrite app_length; cbn [length]; lia).
    split; [|split; [|split; [|split]]]; cbn [pkeys pvals pcount].
    + rewrite !app_length, !map_length. cbn [length]. lia.
    + rewrite !app_length, !map_length. cbn [length]. lia.
    + rewrite app_length. cbn [length]. lia.
    + assumption.
    + exists gk, gv. rewrite !map_app, <- !app_assoc. auto.
Qed.

Lemma findk_app p r key : ~ In key p -> forall i, pl_findk (p ++ r) key i = pl_findk r key (i + Z.of_nat (length p)).
Proof.
  induction p as [|k p IH]; cbn [app pl_findk length In]; intros Hn i; [f_equal; lia|].
  destruct (Z.eqb_spec k key); [tauto|]. rewrite IH by tauto. f_equal. lia.
Qed.

Lemma filter_notin (p : list (Z * V)) key : ~ In key (map fst p) -> filter (fun kw => negb (fst kw =? key)) p = p.
Proof.
  induction p as [|[k w] p IH]; cbn [filter map In fst]; intros Hn; [reflexivity|].
  destruct (Z.eqb_spec k key); [tauto|]. cbn [negb]. rewrite IH by tauto. reflexivity.
Qed.

Lemma array_delete {B} arr (p q : list B) x slack : arr = p ++ x :: q ++ slack ->
  exists s', amove arr (length p) (S (length p)) (length q) = Some (p ++ q ++ s') /\ length (p ++ q ++ s') = length arr.
Proof.
  intros E. unfold amove.
  rewrite (aget_at arr (p ++ [x]) q slack).
  2:{ rewrite E, <- app_assoc. reflexivity. } 2:{ rewrite app_length. cbn. lia. } 2:{ reflexivity. }
  destruct (split_at (x :: q) (length q)) as (a & b & Ea & La); [cbn; lia|].
  exists (b ++ slack). rewrite (aput_at arr p a (b ++ slack) q); [|rewrite E, app_comm_cons, Ea, <- app_assoc; reflexivity|reflexivity|lia].
  split; [reflexivity|]. rewrite E, app_comm_cons, Ea, !app_length. lia.
Qed.

Lemma del_prep n l kvs key : prep n l kvs ->
  exists l' z, pl_delk l key = Some (l', z) /\ prep n l' (filter (fun kw => negb (fst kw =? key)) kvs).
Proof.
  intros H. unfold pl_delk. rewrite (prep_keys n l kvs H). destruct H as (Ln & Lv & Hc & S & gk & gv & Hk & Hv).
  assert (Lk := Ln). rewrite Hk, app_length, map_length in Lk.
  assert (Lv' := Lv). rewrite Hv, app_length, map_length in Lv'.
  destruct (in_dec Z.eq_dec key (map fst kvs)) as [Hi|Hi].
  - apply in_map_iff in Hi. destruct Hi as ([k w] & Ek & Hi). cbn in Ek. subst k.
    apply in_split in Hi. destruct Hi as (p & q & E).
    assert (S' := S). rewrite E, map_app in S'. cbn [map fst] in S'. apply sorted_app_inv in S'. destruct S' as (S1 & S2 & S3).
    inversion S2 as [|? ? S4 F]; subst.
    assert (Np : ~ In key (map fst p)) by (intros C; apply (before_irr asc key), S3; [assumption|left; reflexivity]).
    assert (Nq : ~ In key (map fst q)) by (intros C; rewrite Forall_forall in F; apply (before_irr asc key), F, C).
    rewrite map_app, findk_app by assumption. cbn [map fst pl_findk]. rewrite Z.eqb_refl, map_length, Z.add_0_l.
    replace (filter (fun kw => negb (fst kw =? key)) (p ++ (key, w) :: q)) with (p ++ q).
    2:{ rewrite filter_app. cbn [filter fst]. rewrite Z.eqb_refl. cbn [negb]. rewrite !filter_notin by assumption. reflexivity. }
    assert (Sq : sorted (map fst (p ++ q))).
    { rewrite map_app. apply sorted_app; auto. intros a b Ha Hb. apply S3; [assumption|right; assumption]. }
    unfold pl_del. rewrite Hc, app_length. cbn [length].
    rewrite app_length in *. cbn [length] in *.
    replace ((Z.of_nat (length p) <? 0) || (Z.of_nat (length p) >? Z.of_nat (length p + Datatypes.S (length q)) - 1)) with false by lia.
    destruct (Z.ltb_spec (Z.of_nat (length p)) (Z.of_nat (length p + Datatypes.S (length q)) - 1)).
    + rewrite Nat2Z.id. replace (length p + Datatypes.S (length q) - 1 - length p)%nat with (length q) by lia.
      destruct (array_delete (pkeys l) (map fst p) (map fst q) key gk) as (s1 & E1 & E2).
      { rewrite Hk, map_app, <- app_assoc. reflexivity. }
      destruct (array_delete (pvals l) (map snd p) (map snd q) w gv) as (s2 & E3 & E4).
      { rewrite Hv, map_app, <- app_assoc. reflexivity. }
      rewrite !map_length in E1, E3. rewrite E1, E3. eexists _, _. split; [reflexivity|].
      split; [|split; [|split; [|split]]]; cbn [pkeys pvals pcount]; try lia.
      * rewrite app_length. lia.
      * assumption.
      * exists s1, s2. rewrite !map_app, <- !app_assoc. auto.
    + destruct q; [|cbn in *; lia]. eexists _, _. split; [reflexivity|]. rewrite app_nil_r.
      split; [|split; [|split; [|split]]]; cbn [pkeys pvals pcount]; auto.
      * cbn. lia.
      * exists (key :: gk), (w :: gv). rewrite Hk, Hv, !map_app, <- !app_assoc. auto.
  - rewrite filter_notin by assumption.
    assert (F0 : pl_findk (map fst kvs) key 0 = -1) by (rewrite <- (app_nil_r (map fst kvs)), findk_app by assumption; reflexivity).
    rewrite F0.
    unfold pl_del. cbn [Z.ltb Z.compare orb]. eexists _, _. split; [reflexivity|].
    split; [|split; [|split; [|split]]]; auto. exists gk, gv. auto.
Qed.

Lemma pint_run_ok n ops : forall l kvs, prep n l kvs ->
  exists l', pl_run asc l ops = Some l' /\ prep n l' (fold_left (rank_step asc n) ops kvs).
Proof.
  induction ops as [|op ops IH]; intros l kvs H; cbn [pl_run fold_left]; [eauto|].
  destruct op as [key v|key]; cbn [pl_step rank_step].
  - destruct (set_prep n l kvs key v H) as (l1 & z & E & H1). rewrite E. apply IH. assumption.
  - destruct (del_prep n l kvs key H) as (l1 & z & E & H1). rewrite E. apply IH. assumption.
Qed.

Lemma start_prep ks (vs : list V) : length vs = length ks -> prep (length ks) (mkpl ks vs 0) [].
Proof.
  intros H. split; [|split; [|split; [|split]]]; cbn [pkeys pvals pcount]; auto; [constructor|]. exists ks, vs. auto.
Qed.

(** *** the specification itself *)
Lemma look_in (kvs : list (Z * V)) k v : sorted (map fst kvs) -> (In (k, v) kvs <-> look kvs k = Some v).
Proof.
  induction kvs as [|[k' v'] kvs IH]; cbn [map fst In look]; intros S; [split; [tauto|discriminate]|].
  inversion S as [|? ? S' F]; subst. destruct (Z.eqb_spec k' k) as [->|Hne].
  - split.
    + intros [E|Hi]; [injection E as ->; reflexivity|]. exfalso. rewrite Forall_forall in F.
      apply (before_irr asc k), F. apply (in_map fst) in Hi. exact Hi.
    + intros [= ->]. left. reflexivity.
  - rewrite <- (IH S'). split; [intros [E|Hi]; [congruence|assumption]|auto].
Qed.

Lemma insert_sorted kvs key (v : V) : sorted (map fst kvs) -> sorted (map fst (rank_insert asc key v kvs)).
Proof.
  intros S. destruct (trisect kvs key S) as (p & m & q & -> & Fp & Fq & Hm). rewrite rank_insert_at by assumption.
  eapply sorted_insert; eassumption.
Qed.

Lemma insert_look kvs key (v : V) k : sorted (map fst kvs) ->
  look (rank_insert asc key v kvs) k = if key =? k then Some v else look kvs k.
Proof.
  intros S. destruct (trisect kvs key S) as (p & m & q & -> & Fp & Fq & Hm). rewrite rank_insert_at by assumption.
  rewrite !look_app. cbn [look]. destruct (Z.eqb_spec key k) as [->|Hne].
  - rewrite (proj1 (look_none p k)); [reflexivity|]. intros C. apply in_map_iff in C. destruct C as (kv & E & C).
    rewrite Forall_forall in Fp. apply Fp in C. rewrite E in C. apply (before_irr asc k C).
  - destruct Hm as [->|(w & ->)]; cbn [look]; [reflexivity|]. destruct (Z.eqb_spec key k); [contradiction|]. reflexivity.
Qed.

Lemma filter_shorter {B} (f : B -> bool) l : (length (filter f l) <= length l)%nat.
Proof. induction l as [|x l IH]; cbn [filter length]; [lia|]. destruct (f x); cbn [length]; lia. Qed.

Lemma firstn_cons_cut {B} n (x : B) l : firstn n (x :: firstn n l) = firstn n (x :: l).
Proof.
  destruct n as [|n]; [reflexivity|]. rewrite !firstn_cons. f_equal. rewrite firstn_firstn. f_equal. lia.
Qed.

(** cutting before or after an insertion is the same *)
Lemma cut_insert n : forall (kvs : list (Z * V)) key v,
  firstn n (rank_insert asc key v (firstn n kvs)) = firstn n (rank_insert asc key v kvs).
Proof.
  induction n as [|n IH]; intros kvs key v; [reflexivity|].
  destruct kvs as [|[k w] kvs]; cbn [firstn rank_insert]; [reflexivity|].
  destruct (k =? key); cbn [firstn].
  - rewrite firstn_firstn, Nat.min_id. reflexivity.
  - destruct (better asc key k); cbn [firstn].
    + f_equal. apply firstn_cons_cut.
    + f_equal. apply IH.
Qed.

Definition sets_only (ops : list (kop V)) := Forall (fun op => match op with KSet _ _ => True | KDel _ => False end) ops.

Lemma rank_sets n ops : sets_only ops -> forall M, sorted (map fst M) ->
  exists M', sorted (map fst M') /\ (forall k, look M' k = last_set ops k (look M k))
    /\ fold_left (rank_step asc n) ops (firstn n M) = firstn n M'.
Proof.
  intros H. induction H as [|[key v|key] ops Ho H IH]; intros M S; [exists M; auto| |tauto].
  destruct (IH (rank_insert asc key v M) (insert_sorted M key v S)) as (M' & S' & K & E).
  exists M'. split; [assumption|]. split.
  - intros k. rewrite K, insert_look by assumption. reflexivity.
  - cbn [fold_left rank_step]. rewrite cut_insert. assumption.
Qed.

Lemma rank_general n (ops : list (kop V)) : forall kvs, sorted (map fst kvs) -> (length kvs <= n)%nat ->
  let r := fold_left (rank_step asc n) ops kvs in
  sorted (map fst r) /\ (length r <= n)%nat
  /\ forall k v, look r k = Some v -> last_set ops k (look kvs k) = Some v.
Proof.
  enough (G : forall cur kvs, sorted (map fst kvs) -> (length kvs <= n)%nat ->
     (forall k v, look kvs k = Some v -> cur k = Some v) ->
     let r := fold_left (rank_step asc n) ops kvs in
     sorted (map fst r) /\ (length r <= n)%nat /\ forall k v, look r k = Some v -> last_set ops k (cur k) = Some v).
  { intros kvs S L. apply (G (look kvs)); auto. }
  induction ops as [|op ops IH]; intros cur kvs S L C; cbn [fold_left last_set]; [auto|].
  destruct op as [key v|key]; cbn [rank_step].
  - apply (IH (fun k => if key =? k then Some v else cur k)).
    + rewrite <- firstn_map. apply sorted_firstn, insert_sorted, S.
    + rewrite firstn_length. lia.
    + intros k v' Hk. assert (Hk' : look (rank_insert asc key v kvs) k = Some v').
      { rewrite <- (firstn_skipn n (rank_insert asc key v kvs)), look_app, Hk. reflexivity. }
      rewrite insert_look in Hk' by assumption. destruct (key =? k); auto.
  - assert (Hf : forall k, look (filter (fun kw => negb (fst kw =? key)) kvs) k = if key =? k then None else look kvs k).
    { intros k. clear. induction kvs as [|[k' v'] kvs IHk]; cbn [filter look fst]; [destruct (key =? k); reflexivity|].
      destruct (Z.eqb_spec k' key) as [->|Hne]; cbn [negb look].
      - rewrite IHk. destruct (key =? k); reflexivity.
      - rewrite IHk. destruct (Z.eqb_spec k' k) as [->|]; [|reflexivity]. destruct (Z.eqb_spec key k); [congruence|reflexivity]. }
    apply (IH (fun k => if key =? k then None else cur k)).
    + destruct (trisect kvs key S) as (p & m & q & -> & Fp & Fq & Hm). clear - S Fp Fq Hm.
      assert (Np : ~ In key (map fst p)).
      { intros C. apply in_map_iff in C. destruct C as (kv & E & C). rewrite Forall_forall in Fp. apply Fp in C. rewrite E in C. apply (before_irr asc key C). }
      assert (Nq : ~ In key (map fst q)).
      { intros C. apply in_map_iff in C. destruct C as (kv & E & C). rewrite Forall_forall in Fq. apply Fq in C. rewrite E in C. apply (before_irr asc key C). }
      rewrite !filter_app, (filter_notin p), (filter_notin q) by assumption.
      replace (filter (fun kw => negb (fst kw =? key)) m) with (@nil (Z * V)).
      2:{ destruct Hm as [->|(w & ->)]; cbn [filter fst]; rewrite ?Z.eqb_refl; reflexivity. }
      rewrite !map_app in *. cbn [app map]. apply sorted_app_inv in S. destruct S as (S1 & S2 & S3).
      apply sorted_app_inv in S2. destruct S2 as (S2 & S4 & S5). apply sorted_app; auto.
      intros a b Ha Hb. apply S3; [assumption|]. apply in_or_app. auto.
    + assert (LL := filter_shorter (fun kw : Z * V => negb (fst kw =? key)) kvs). lia.
    + intros k v Hk. rewrite Hf in Hk. destruct (key =? k); [discriminate|auto].
Qed.

Lemma pget_ok n l kvs i : prep n l kvs -> pl_get l i = Some (seq_get (map snd kvs) i).
Proof.
  intros (Ln & Lv & Hc & S & gk & gv & Hk & Hv). unfold pl_get, seq_get. rewrite Hc.
  destruct (Z.ltb_spec i 0); cbn [orb]; [reflexivity|].
  destruct (i >? Z.of_nat (length kvs) - 1) eqn:E.
  - rewrite (proj2 (nth_error_None _ _)) by (rewrite map_length; lia). reflexivity.
  - rewrite Hv, nth_error_app1 by (rewrite map_length; lia).
    destruct (nth_error (map snd kvs) (Z.to_nat i)) eqn:En; [reflexivity|]. apply nth_error_None in En. rewrite map_length in En. lia.
Qed.

Lemma sorted_ordered ks : sorted ks -> key_ordered asc ks.
Proof. intros S i j a b. apply sorted_nth. assumption. Qed.

Lemma ranking_lemma ks vs (ops : list (kop V)) : length vs = length ks ->
  exists l r, pl_run asc (mkpl ks vs 0) ops = Some l
    /\ r = rank_run asc (length ks) ops
    /\ firstn (pcount l) (pkeys l) = map fst r
    /\ (forall i, pl_get l i = Some (seq_get (map snd r) i))
    /\ key_ordered asc (map fst r) /\ (length r <= length ks)%nat
    /\ (forall k v, In (k, v) r -> last_set ops k None = Some v).
Proof.
  intros H. destruct (pint_run_ok (length ks) ops _ _ (start_prep ks vs H)) as (l & E & P).
  destruct (rank_general (length ks) ops [] ltac:(constructor) ltac:(cbn; lia)) as (S & L & K).
  exists l, (rank_run asc (length ks) ops). unfold rank_run in *. split; [assumption|]. split; [reflexivity|].
  split; [|split; [|split; [|split]]].
  - destruct P as (_ & _ & Hc & _ & gk & gv & Hk & _). rewrite Hk, Hc, firstn_at; [reflexivity|]. rewrite map_length. reflexivity.
  - intros i. eapply pget_ok. eassumption.
  - apply sorted_ordered. assumption.
  - assumption.
  - intros k v Hi. apply (K k v). apply look_in; assumption.
Qed.

Lemma top_lemma ks vs (ops : list (kop V)) : length vs = length ks -> sets_only ops ->
  exists l M, pl_run asc (mkpl ks vs 0) ops = Some l
    /\ key_ordered asc (map fst M) /\ (forall k v, In (k, v) M <-> last_set ops k None = Some v)
    /\ firstn (pcount l) (pkeys l) = map fst (firstn (length ks) M)
    /\ (forall i, pl_get l i = Some (seq_get (map snd (firstn (length ks) M)) i)).
Proof.
  intros H Hs. destruct (pint_run_ok (length ks) ops _ _ (start_prep ks vs H)) as (l & E & P).
  destruct (rank_sets (length ks) ops Hs [] ltac:(constructor)) as (M & S & K & Ef).
  rewrite firstn_nil in Ef. rewrite Ef in P. exists l, M. split; [assumption|]. split; [apply sorted_ordered; assumption|].
  split; [|split].
  - intros k v. rewrite look_in, K by assumption. reflexivity.
  - destruct P as (_ & _ & Hc & _ & gk & gv & Hk & _). rewrite Hk, Hc, firstn_at; [reflexivity|]. rewrite map_length. reflexivity.
  - intros i. eapply pget_ok. eassumption.
Qed.
End P.
