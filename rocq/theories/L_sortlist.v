(** Proofs about the sorted list and the bounded ranking list. *)
From Verif Require Import Base S_list S_lists M_list M_lists L_list.
From Coq Require Import ZifyBool ZifyNat Sorted.

(** arrays that start at 0 keep doing so *)
Section Start.
Context {A : Type}.
Variable junk : nat -> nat -> A.

Lemma grow_start (s s' : slist A) n : lstart s = 0%nat -> sl_grow junk s n = Some s' -> lstart s' = 0%nat.
Proof.
  intros H. unfold sl_grow. rewrite H. rewrite andb_false_r.
  destruct (Nat.leb _ _); [congruence|]. destruct (aget _ _ _); [|discriminate]. destruct (aput _ _ _); [|discriminate].
  intros [= <-]. cbn. destruct (lbuf s); [assumption|reflexivity].
Qed.
Lemma pushs_start (s s' : slist A) xs z : lstart s = 0%nat -> sl_pushs junk s xs = Some (s', z) -> lstart s' = 0%nat.
Proof.
  intros H. unfold sl_pushs. destruct (sl_grow junk s (length xs)) eqn:E; [|discriminate]. apply grow_start in E; auto.
  destruct (aput _ _ _); [|discriminate]. intros [= <- _]. exact E.
Qed.
Lemma inserts_start (s s' : slist A) i xs z : lstart s = 0%nat -> sl_inserts junk s i xs = Some (s', z) -> lstart s' = 0%nat.
Proof.
  intros H. unfold sl_inserts. destruct (_ || _); [apply pushs_start; assumption|].
  destruct (sl_grow junk s (length xs)) eqn:E; [|discriminate]. apply grow_start in E; auto.
  destruct (amove _ _ _ _); [|discriminate]. destruct (aput _ _ _); [|discriminate]. intros [= <- _]. exact E.
Qed.
Lemma delete_start (s s' : slist A) i c z : lstart s = 0%nat -> sl_delete s i c = Some (s', z) -> lstart s' = 0%nat.
Proof.
  intros H. unfold sl_delete. rewrite H. cbn [Nat.ltb Nat.leb]. destruct (_ || _); [congruence|].
  destruct (amove _ _ _ _); [|discriminate]. intros [= <- _]. exact H.
Qed.
Lemma update_start (s s' : slist A) i c z : lstart s = 0%nat -> sl_update s i c = Some (s', z) -> lstart s' = 0%nat.
Proof.
  intros H. unfold sl_update. destruct (_ && _); [|congruence].
  destruct (aput _ _ _); [|discriminate]. intros [= <- _]. exact H.
Qed.
End Start.

Section Sort.
Variable asc : bool.

Definition before (a b : Z) : Prop := if asc then a < b else b < a.

Lemma before_tri a b : before a b \/ a = b \/ before b a.
Proof. unfold before. destruct asc; lia. Qed.
Lemma before_trans a b c : before a b -> before b c -> before a c.
Proof. unfold before. destruct asc; lia. Qed.
Lemma before_irr a : ~ before a a.
Proof. unfold before. destruct asc; lia. Qed.
Lemma above_spec a b : so_above asc a b = true <-> before b a.
Proof. unfold before, so_above. destruct asc; lia. Qed.
Lemma below_spec a b : so_below asc a b = true <-> before a b.
Proof. unfold before, so_below. destruct asc; lia. Qed.

Notation sorted := (StronglySorted before).

Lemma sorted_nth ks i j a b : sorted ks -> (i < j)%nat -> nth_error ks i = Some a -> nth_error ks j = Some b -> before a b.
Proof.
  intros H. revert i j. induction H as [|k ks H IH F]; intros i j Hij Ha Hb; [destruct i; discriminate|].
  destruct j; [lia|]. destruct i; cbn [nth_error] in *.
  - injection Ha as ->. rewrite Forall_forall in F. apply F. eapply nth_error_In; eassumption.
  - apply (IH i j); auto; lia.
Qed.

Lemma sorted_inj ks i j a : sorted ks -> nth_error ks i = Some a -> nth_error ks j = Some a -> i = j.
Proof.
  intros H Ha Hb. destruct (Nat.lt_trichotomy i j) as [L|[E|L]]; [|assumption|]; exfalso; apply (before_irr a);
    [apply (sorted_nth ks i j)|apply (sorted_nth ks j i)]; auto.
Qed.

Lemma seq_get_nat {B} (l : list B) n : seq_get l (Z.of_nat n) = nth_error l n.
Proof. unfold seq_get. destruct (Z.ltb_spec (Z.of_nat n) 0); [lia|]. rewrite Nat2Z.id. reflexivity. Qed.

Context {V : Type}.

(** the binary search *)
Lemma search_ok (l : solist V) ks key : holds_seq (skey l) ks -> sorted ks ->
  forall fuel lo hi, 0 <= lo -> hi < Z.of_nat (length ks) -> lo <= hi + 1 -> hi - lo + 1 < Z.of_nat fuel ->
  (forall j, nth_error ks j = Some key -> lo <= Z.of_nat j <= hi) ->
  (exists j, so_search asc fuel l key lo hi = Some (Z.of_nat j) /\ nth_error ks j = Some key)
  \/ (so_search asc fuel l key lo hi = Some (-1) /\ ~ In key ks).
Proof.
  intros H S. induction fuel as [|fuel IH]; intros lo hi Hlo Hhi Hlh Hf Hk; [lia|]. cbn [so_search].
  destruct (Z.leb_spec lo hi).
  2:{ right. split; [reflexivity|]. intros C. apply In_nth_error in C. destruct C as (j & C). apply Hk in C. lia. }
  rewrite Z.quot_div_nonneg by lia.
  set (mid := (hi - lo) / 2 + lo).
  assert (Hm : lo <= mid <= hi).
  { assert (A1 := Z.div_pos (hi - lo) 2 ltac:(lia) ltac:(lia)). assert (A2 := Z.div_le_upper_bound (hi - lo) 2 (hi - lo) ltac:(lia) ltac:(lia)).
    subst mid. lia. }
  clearbody mid. assert (Em : mid = Z.of_nat (Z.to_nat mid)) by lia. set (m := Z.to_nat mid) in *. clearbody m. subst mid.
  rewrite (get_ok _ _ _ H), seq_get_nat.
  destruct (nth_error ks m) as [mv|] eqn:Em; [|apply nth_error_None in Em; lia].
  destruct (so_above asc mv key) eqn:Ea.
  - apply above_spec in Ea. apply IH; try lia. intros j Hj. assert (B := Hk j Hj). split; [lia|].
    destruct (Z.lt_ge_cases (Z.of_nat j) (Z.of_nat m)); [lia|]. exfalso.
    destruct (Nat.eq_dec m j) as [->|]; [rewrite Em in Hj; injection Hj as ->; apply (before_irr key Ea)|].
    apply (before_irr key). apply (before_trans _ mv); [assumption|]. apply (sorted_nth ks m j); auto. lia.
  - destruct (so_below asc mv key) eqn:Eb.
    + apply below_spec in Eb. apply IH; try lia. intros j Hj. assert (B := Hk j Hj). split; [|lia].
      destruct (Z.lt_ge_cases (Z.of_nat m) (Z.of_nat j)); [lia|]. exfalso.
      destruct (Nat.eq_dec m j) as [->|]; [rewrite Em in Hj; injection Hj as ->; apply (before_irr key Eb)|].
      apply (before_irr key). apply (before_trans _ mv); [|assumption]. apply (sorted_nth ks j m); auto. lia.
    + left. exists m. split; [reflexivity|]. rewrite Em. f_equal.
      destruct (before_tri mv key) as [B|[B|B]]; [apply below_spec in B; congruence|assumption|apply above_spec in B; congruence].
Qed.

Definition rep (l : solist V) (kvs : list (Z * V)) : Prop :=
  holds_seq (skey l) (map fst kvs) /\ holds_seq (sval l) (map snd kvs) /\ sorted (map fst kvs) /\ lstart (sval l) = 0%nat.

Lemma index_ok l kvs key : rep l kvs ->
  (exists p v q, so_index asc l key = Some (Z.of_nat (length p)) /\ kvs = p ++ (key, v) :: q)
  \/ (so_index asc l key = Some (-1) /\ ~ In key (map fst kvs)).
Proof.
  intros (Hk & Hv & S & Hz). unfold so_index.
  assert (Lc : lcount (skey l) = length (map fst kvs)) by (destruct Hk as (? & ? & _ & _ & ?); auto).
  rewrite Lc. destruct (search_ok l _ key Hk S (Datatypes.S (length (map fst kvs))) 0 (Z.of_nat (length (map fst kvs)) - 1))
    as [(j & E & Hj)|(E & Hn)]; try lia.
  - intros j Hj. assert (j < length (map fst kvs))%nat by (apply nth_error_Some; congruence). lia.
  - left. rewrite nth_error_map in Hj. destruct (nth_error kvs j) as [[k v]|] eqn:Ej; [|discriminate].
    cbn in Hj. injection Hj as ->. apply nth_error_split in Ej. destruct Ej as (p & q & -> & <-).
    exists p, v, q. auto.
  - right. auto.
Qed.

(** association list lookup *)
Fixpoint look (kvs : list (Z * V)) (key : Z) : option V :=
  match kvs with [] => None | (k, v) :: kvs' => if k =? key then Some v else look kvs' key end.

Lemma look_app p q key : look (p ++ q) key = match look p key with Some v => Some v | None => look q key end.
Proof. induction p as [|[k v] p IH]; cbn [look app]; [reflexivity|]. destruct (k =? key); auto. Qed.
Lemma look_none p key : ~ In key (map fst p) <-> look p key = None.
Proof.
  induction p as [|[k v] p IH]; cbn [look map In fst]; [tauto|]. destruct (Z.eqb_spec k key); [|tauto].
  split; [intros C; destruct C; auto|discriminate].
Qed.

Lemma find_ok l kvs key : rep l kvs -> so_find asc l key = Some (look kvs key).
Proof.
  intros H. unfold so_find. destruct (index_ok l kvs key H) as [(p & v & q & E & Eq)|(E & Hn)]; rewrite E.
  - destruct (Z.geb_spec (Z.of_nat (length p)) 0); [|lia]. destruct H as (Hk & Hv & S & Hz).
    rewrite (get_ok _ _ _ Hv), seq_get_nat, Eq, map_app, nth_error_app2 by (rewrite map_length; lia).
    rewrite map_length, Nat.sub_diag. cbn [map nth_error snd]. f_equal.
    rewrite look_app. cbn [look]. rewrite Z.eqb_refl.
    replace (look p key) with (@None V); [reflexivity|]. symmetry. apply look_none. intros C.
    apply In_nth_error in C. destruct C as (j & C). rewrite Eq, map_app in S.
    assert (j < length (map fst p))%nat by (apply nth_error_Some; congruence).
    assert (j = length (map fst p)); [|lia]. apply (sorted_inj _ j (length (map fst p)) key S).
    + rewrite nth_error_app1 by lia. assumption.
    + rewrite nth_error_app2, Nat.sub_diag by lia. reflexivity.
  - cbn. f_equal. symmetry. apply look_none. assumption.
Qed.

(** the insertion point *)
Lemma place_ok (l : solist V) ks key : holds_seq (skey l) ks -> sorted ks -> ~ In key ks ->
  forall n i, (i + n = length ks)%nat -> Forall (fun k => before k key) (firstn i ks) ->
  match so_place asc n l key (Z.of_nat i) with
  | None => False
  | Some None => Forall (fun k => before k key) ks
  | Some (Some z) => exists p q, ks = p ++ q /\ z = Z.of_nat (length p) /\ q <> []
      /\ Forall (fun k => before k key) p /\ Forall (before key) q
  end.
Proof.
  intros H S Hn. induction n as [|n IH]; intros i Hi F; cbn [so_place].
  - rewrite firstn_all2 in F by lia. assumption.
  - rewrite (get_ok _ _ _ H), seq_get_nat. destruct (nth_error ks i) as [k|] eqn:E; [|apply nth_error_None in E; lia].
    apply nth_error_split in E. destruct E as (p & q & E & Lp). subst ks.
    destruct (so_above asc k key) eqn:Ea.
    + apply above_spec in Ea. exists p, (k :: q). split; [reflexivity|]. split; [lia|]. split; [discriminate|].
      rewrite firstn_at in F by lia. split; [assumption|].
      constructor; [assumption|]. rewrite Forall_forall. intros x Hx. apply In_nth_error in Hx. destruct Hx as (j & Hx).
      apply (before_trans _ k); [assumption|].
      apply (sorted_nth (p ++ k :: q) i (i + 1 + j)); [assumption|lia| |].
      * rewrite nth_error_app2, Lp, Nat.sub_diag by lia. reflexivity.
      * rewrite nth_error_app2 by lia. replace (i + 1 + j - length p)%nat with (Datatypes.S j) by lia. assumption.
    + assert (Hb : before k key).
      { destruct (before_tri k key) as [B|[B|B]]; [assumption| |apply above_spec in B; congruence].
        exfalso. apply Hn. apply in_or_app. right. left. assumption. }
      replace (Z.of_nat i + 1) with (Z.of_nat (Datatypes.S i)) by lia. apply IH; [lia|].
      replace (p ++ k :: q) with ((p ++ [k]) ++ q) by (rewrite <- app_assoc; reflexivity).
      rewrite firstn_at in F by lia.
      rewrite firstn_at by (rewrite app_length; cbn; lia).
      apply Forall_app. split; [assumption|]. constructor; [assumption|constructor].
Qed.

Lemma sorted_app p q : sorted p -> sorted q -> (forall a b, In a p -> In b q -> before a b) -> sorted (p ++ q).
Proof.
  intros Hp Hq H. induction Hp as [|a p Hp IH F]; cbn [app]; [assumption|].
  constructor; [apply IH; intros; apply H; auto; right; assumption|].
  apply Forall_app. split; [assumption|]. rewrite Forall_forall. intros b Hb. apply H; [left; reflexivity|assumption].
Qed.

Lemma sorted_app_inv p q : sorted (p ++ q) -> sorted p /\ sorted q /\ forall a b, In a p -> In b q -> before a b.
Proof.
  induction p as [|x p IH]; cbn [app]; intros H; [split; [constructor|]; split; [assumption|]; intros a b []|].
  inversion H as [|? ? H1 F]; subst. apply Forall_app in F. destruct F as [F1 F2]. destruct (IH H1) as (A1 & A2 & A3).
  split; [constructor; assumption|]. split; [assumption|].
  intros a b [->|Ha] Hb; [rewrite Forall_forall in F2; auto|auto].
Qed.

Lemma insert_mid {B} (p q : list B) x i : i = Z.of_nat (length p) -> seq_insert (p ++ q) i [x] = p ++ x :: q.
Proof.
  intros ->. unfold seq_insert, seq_place. rewrite Nat2Z.id, app_length, Nat.min_l by lia.
  rewrite firstn_at, skipn_at by reflexivity. reflexivity.
Qed.
Lemma update_mid {B} (p q : list B) y x i : i = Z.of_nat (length p) -> seq_update (p ++ y :: q) i x = p ++ x :: q.
Proof.
  intros ->. unfold seq_update. rewrite app_length. cbn [length].
  replace ((0 <=? Z.of_nat (length p)) && (Z.of_nat (length p) <? Z.of_nat (length p + Datatypes.S (length q)))) with true by lia.
  rewrite Nat2Z.id, firstn_at by reflexivity. f_equal. f_equal.
  replace (p ++ y :: q) with ((p ++ [y]) ++ q) by (rewrite <- app_assoc; reflexivity).
  rewrite skipn_at; [reflexivity|]. rewrite app_length. cbn. lia.
Qed.
Lemma delete_mid {B} (p q : list B) y i : i = Z.of_nat (length p) -> seq_delete (p ++ y :: q) i 1 = p ++ q.
Proof.
  intros ->. unfold seq_delete, seq_can_delete. rewrite app_length. cbn [length].
  replace ((0 <=? Z.of_nat (length p)) && (1 <=? 1) && (Z.of_nat (length p) + 1 <=? Z.of_nat (length p + Datatypes.S (length q)))) with true by lia.
  rewrite Nat2Z.id, firstn_at by reflexivity. f_equal.
  replace (p ++ y :: q) with ((p ++ [y]) ++ q) by (rewrite <- app_assoc; reflexivity).
  rewrite skipn_at; [reflexivity|]. rewrite app_length. cbn. lia.
Qed.

Lemma map_split {B C} (f : B -> C) l p q : map f l = p ++ q -> exists p' q', l = p' ++ q' /\ map f p' = p /\ map f q' = q.
Proof.
  revert l. induction p as [|x p IH]; intros l H; [exists [], l; auto|].
  destruct l as [|y l]; [discriminate|]. cbn in H. injection H as <- H. destruct (IH l H) as (p' & q' & -> & <- & <-).
  exists (y :: p'), q'. auto.
Qed.

Variable jk : nat -> nat -> Z.
Variable jv : nat -> nat -> V.

Lemma set_rep l kvs key v : rep l kvs ->
  exists l' kvs', so_set jk jv asc l key v = Some l' /\ rep l' kvs'
    /\ forall k, look kvs' k = if key =? k then Some v else look kvs k.
Proof.
  intros H. unfold so_set. destruct (index_ok l kvs key H) as [(p & w & q & E & Eq)|(E & Hn)]; rewrite E;
    destruct H as (Hk & Hv & S & Hz).
  - destruct (Z.geb_spec (Z.of_nat (length p)) 0); [|lia].
    destruct (update_ok (sval l) _ (Z.of_nat (length p)) v Hv) as (vs & E1 & H1). rewrite E1.
    exists (mkso (skey l) vs), (p ++ (key, v) :: q). split; [reflexivity|]. split.
    + split; [|split; [|split]]; cbn [skey sval].
      * rewrite Eq in Hk. rewrite map_app in *. exact Hk.
      * rewrite Eq, map_app in H1. cbn [map snd] in H1. rewrite update_mid in H1 by (rewrite map_length; reflexivity).
        rewrite map_app. exact H1.
      * rewrite Eq in S. rewrite map_app in *. exact S.
      * eapply update_start; eassumption.
    + intros k. rewrite Eq, !look_app. cbn [look]. destruct (Z.eqb_spec key k) as [->|Hne].
      * replace (look p k) with (@None V); [reflexivity|]. symmetry. apply look_none.
        intros C. rewrite Eq, map_app in S. apply sorted_app_inv in S. apply (before_irr k). apply S; [assumption|left; reflexivity].
      * reflexivity.
  - cbn [Z.geb Z.compare].
    assert (Lc : lcount (skey l) = length (map fst kvs)) by (destruct Hk as (? & ? & _ & _ & ?); auto).
    assert (P := place_ok l _ key Hk S Hn (length (map fst kvs)) 0 ltac:(lia) ltac:(constructor)). rewrite Lc.
    change (Z.of_nat 0) with 0 in P. destruct (so_place asc (length (map fst kvs)) l key 0) as [[z|]|]; [| |tauto].
    + destruct P as (p & q & Ek & -> & Hq & Fp & Fq). apply map_split in Ek. destruct Ek as (p' & q' & -> & <- & <-).
      rewrite map_length in *.
      destruct (inserts_ok jk (skey l) _ (Z.of_nat (length p')) [key] Hk) as (ks & E1 & H1). rewrite E1.
      destruct (inserts_ok jv (sval l) _ (Z.of_nat (length p')) [v] Hv) as (vs & E2 & H2). rewrite E2.
      exists (mkso ks vs), (p' ++ (key, v) :: q'). split; [reflexivity|]. split.
      * split; [|split; [|split]]; cbn [skey sval].
        -- rewrite map_app in H1. rewrite insert_mid in H1 by (rewrite map_length; reflexivity). rewrite map_app. exact H1.
        -- rewrite map_app in H2. rewrite insert_mid in H2 by (rewrite map_length; reflexivity). rewrite map_app. exact H2.
        -- rewrite map_app in *. cbn [map fst]. apply sorted_app_inv in S. destruct S as (S1 & S2 & S3).
           rewrite Forall_forall in Fp. apply sorted_app; [assumption|constructor; assumption|].
           intros a b Ha [<-|Hb]; [auto|auto].
        -- eapply inserts_start; eassumption.
      * intros k. rewrite !look_app. cbn [look]. destruct (Z.eqb_spec key k) as [->|Hne].
        -- replace (look p' k) with (@None V); [reflexivity|]. symmetry. apply look_none.
           intros C. apply Hn. rewrite map_app. apply in_or_app. left. assumption.
        -- reflexivity.
    + destruct (pushs_ok jk (skey l) _ [key] Hk) as (ks & E1 & H1). rewrite E1.
      destruct (pushs_ok jv (sval l) _ [v] Hv) as (vs & E2 & H2). rewrite E2.
      exists (mkso ks vs), (kvs ++ [(key, v)]). split; [reflexivity|]. split.
      * split; [|split; [|split]]; cbn [skey sval]; rewrite ?map_app; auto.
        -- apply sorted_app; [assumption|constructor; constructor|]. rewrite Forall_forall in P.
           intros a b Ha [<-|[]]. auto.
        -- eapply pushs_start; eassumption.
      * intros k. rewrite look_app. cbn [look]. destruct (Z.eqb_spec key k) as [->|Hne].
        -- apply look_none in Hn. rewrite Hn. reflexivity.
        -- destruct (look kvs k); reflexivity.
Qed.

Lemma del_rep l kvs key : rep l kvs ->
  exists l' kvs', so_del_key asc l key = Some l' /\ rep l' kvs'
    /\ forall k, look kvs' k = if key =? k then None else look kvs k.
Proof.
  intros H. unfold so_del_key. destruct (index_ok l kvs key H) as [(p & w & q & E & Eq)|(E & Hn)]; rewrite E.
  - destruct H as (Hk & Hv & S & Hz). destruct (Z.geb_spec (Z.of_nat (length p)) 0); [|lia]. unfold so_deli. rewrite Hz, Z.add_0_r.
    destruct (delete_ok (skey l) _ (Z.of_nat (length p)) 1 Hk) as (ks & E1 & H1). rewrite E1.
    destruct (delete_ok (sval l) _ (Z.of_nat (length p)) 1 Hv) as (vs & E2 & H2). rewrite E2.
    exists (mkso ks vs), (p ++ q). split; [reflexivity|].
    rewrite Eq, map_app in S. apply sorted_app_inv in S. cbn [map fst] in S. destruct S as (S1 & S2 & S3).
    inversion S2 as [|? ? S4 F]; subst. split.
    + split; [|split; [|split]]; cbn [skey sval].
      * rewrite map_app in H1. cbn [map fst] in H1. rewrite delete_mid in H1 by (rewrite map_length; reflexivity). rewrite map_app. exact H1.
      * rewrite map_app in H2. cbn [map snd] in H2. rewrite delete_mid in H2 by (rewrite map_length; reflexivity). rewrite map_app. exact H2.
      * rewrite map_app. apply sorted_app; auto. intros a b Ha Hb. apply S3; [assumption|right; assumption].
      * eapply delete_start; eassumption.
    + intros k. rewrite !look_app. cbn [look]. destruct (Z.eqb_spec key k) as [->|Hne]; [|reflexivity].
      rewrite (proj1 (look_none p k)). 2:{ intros C. apply (before_irr k). apply S3; [assumption|left; reflexivity]. }
      apply look_none. intros C. rewrite Forall_forall in F. apply (before_irr k), F, C.
  - cbn. exists l, kvs. split; [reflexivity|]. split; [assumption|]. intros k. destruct (Z.eqb_spec key k) as [->|]; [|reflexivity].
    apply look_none. assumption.
Qed.

Lemma sort_run_ok ops : forall l kvs, rep l kvs ->
  exists l' kvs', so_run jk jv asc l ops = Some l' /\ rep l' kvs' /\ forall k, look kvs' k = last_set ops k (look kvs k).
Proof.
  induction ops as [|op ops IH]; intros l kvs H; cbn [so_run last_set]; [exists l, kvs; auto|].
  destruct op as [key v|key]; cbn [so_step].
  - destruct (set_rep l kvs key v H) as (l1 & kvs1 & E1 & H1 & K1). rewrite E1.
    destruct (IH _ _ H1) as (l2 & kvs2 & E2 & H2 & K2). exists l2, kvs2. split; [assumption|]. split; [assumption|].
    intros k. rewrite K2, K1. reflexivity.
  - destruct (del_rep l kvs key H) as (l1 & kvs1 & E1 & H1 & K1). rewrite E1.
    destruct (IH _ _ H1) as (l2 & kvs2 & E2 & H2 & K2). exists l2, kvs2. split; [assumption|]. split; [assumption|].
    intros k. rewrite K2, K1. reflexivity.
Qed.

Lemma sort_list_lemma ops :
  exists l ks, so_run jk jv asc so_create ops = Some l
    /\ key_ordered asc ks
    /\ (forall i, sl_get (skey l) i = Some (seq_get ks i))
    /\ (forall i k, nth_error ks i = Some k -> sl_get (sval l) (Z.of_nat i) = so_find asc l k)
    /\ (forall k, In k ks <-> last_set ops k None <> None)
    /\ forall key, so_find asc l key = Some (last_set ops key None).
Proof.
  destruct (sort_run_ok ops so_create []) as (l & kvs & E & H & K).
  { split; [apply create_ok|]. split; [apply create_ok|]. split; [constructor|reflexivity]. }
  exists l, (map fst kvs). split; [assumption|]. assert (H' := H). destruct H' as (Hk & Hv & S & Hz).
  split; [|split; [|split; [|split]]].
  - intros i j a b. apply sorted_nth. assumption.
  - intros i. apply get_ok. assumption.
  - intros i k Hi. rewrite (find_ok l kvs k H). rewrite (get_ok _ _ _ Hv), seq_get_nat. f_equal.
    rewrite nth_error_map in *. destruct (nth_error kvs i) as [[k' v]|] eqn:Ei; [|discriminate]. cbn in *. injection Hi as ->.
    apply nth_error_split in Ei. destruct Ei as (p & q & -> & _). rewrite look_app. cbn [look]. rewrite Z.eqb_refl.
    rewrite (proj1 (look_none p k)); [reflexivity|]. intros C. rewrite map_app in S. apply sorted_app_inv in S.
    apply (before_irr k). apply S; [assumption|left; reflexivity].
  - intros k. rewrite <- (K k : look kvs k = last_set ops k None). split.
    + intros Hi C. apply look_none in C. contradiction.
    + intros C. destruct (in_dec Z.eq_dec k (map fst kvs)); [assumption|]. apply look_none in n. contradiction.
  - intros key. rewrite (find_ok l kvs key H), K. reflexivity.
Qed.
End Sort.
