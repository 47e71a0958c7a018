(** Lemmas on the model of the store for one day at a time. *)
From Coq Require Import String ZifyBool ZifyNat.
From Verif Require Import Base S_server S_map S_sub M_dynamic M_sub L_sub S_frwdb M_frwdb.
Open Scope list_scope. Open Scope Z_scope.

Definition low (n : list Z) := map lower n.
Lemma same_low a b : same_name a b = true <-> low a = low b.
Proof. unfold same_name, low. destruct (list_eq_dec Z.eq_dec (map lower a) (map lower b)); split; intros; congruence. Qed.
Lemma same_refl' a : same_name a a = true.
Proof. now apply same_low. Qed.
Lemma same_cong_l a b c : low a = low b -> same_name a c = same_name b c.
Proof. intros E. apply eq_true_iff_eq. rewrite !same_low. now rewrite E. Qed.
Lemma same_cong_r a b c : low a = low b -> same_name c a = same_name c b.
Proof. intros E. apply eq_true_iff_eq. rewrite !same_low. now rewrite E. Qed.
Lemma low_len a b : low a = low b -> List.length a = List.length b.
Proof. intros E. unfold low in E. rewrite <- (map_length lower a), E. apply map_length. Qed.
Lemma low_dot a : has DOT (low a) = has DOT a.
Proof. apply has_lower. auto. Qed.

Definition subj (k t : list Z) : list Z := k ++ DOT :: t.
Lemma low_subj k t : low (subj k t) = low k ++ DOT :: low t.
Proof. unfold low, subj. rewrite map_app. reflexivity. Qed.
Lemma subj_inj k t k' t' : has DOT k = false -> has DOT k' = false -> subj k t = subj k' t' -> k = k' /\ t = t'.
Proof.
  revert k'. induction k as [|c k IH]; intros [|c' k'] A B E; cbn in *; unfold has in *; cbn [existsb] in *.
  - injection E as E. auto.
  - injection E as E F. subst c'. rewrite Z.eqb_refl in B. discriminate.
  - injection E as E F. subst c. rewrite Z.eqb_refl in A. discriminate.
  - injection E as E F. subst c'. apply orb_false_elim in A, B. destruct (IH k') as [-> ->]; tauto.
Qed.
Lemma same_subj k t k' t' : has DOT k = false -> has DOT k' = false ->
  same_name (subj k t) (subj k' t') = same_name k k' && same_name t t'.
Proof.
  intros A B. apply eq_true_iff_eq. rewrite andb_true_iff, !same_low, !low_subj. split.
  - intros E. apply (subj_inj (low k) (low t) (low k') (low t')); [now rewrite low_dot|now rewrite low_dot|exact E].
  - intros [-> ->]. reflexivity.
Qed.
Lemma before_nodot l : has DOT (before_dot l) = false.
Proof.
  induction l as [|c l IH]; [reflexivity|]. cbn [before_dot]. destruct (c =? DOT) eqn:E; [reflexivity|].
  unfold has in *. cbn [existsb]. rewrite IH, Z.eqb_sym, E. reflexivity.
Qed.
Lemma dot_split l : has DOT l = true -> l = subj (before_dot l) (after_dot l).
Proof.
  induction l as [|c l IH]; intros H; [discriminate|]. unfold has in *. cbn [existsb before_dot after_dot] in *. rewrite Z.eqb_sym in H.
  destruct (c =? DOT) eqn:E; [unfold subj; cbn; f_equal; lia|]. cbn [orb] in H. unfold subj in *. cbn [app]. f_equal. apply IH, H.
Qed.
Lemma subj_split k t : has DOT k = false -> before_dot (subj k t) = k /\ after_dot (subj k t) = t.
Proof.
  induction k as [|c k IH]; intros H; [unfold subj; cbn [app before_dot after_dot]; rewrite Z.eqb_refl; auto|].
  unfold has in *. cbn [existsb] in H. apply orb_false_elim in H as [H1 H2]. unfold subj in *. cbn [app before_dot after_dot].
  rewrite Z.eqb_sym in H1. rewrite H1. destruct (IH H2) as [-> ->]. auto.
Qed.
Lemma subj_dot k t : has DOT (subj k t) = true.
Proof. unfold has, subj. rewrite existsb_app. cbn [existsb]. rewrite Z.eqb_refl. apply orb_true_r. Qed.
Lemma divide_subj k t : has DOT k = false -> (List.length (subj k t) < 128)%nat -> divide 128 (subj k t) [] = Some (2, k, t).
Proof.
  intros D L. destruct (subj_split k t D) as [A B]. unfold subj in L. rewrite app_length in L. cbn [List.length] in L.
  rewrite (divide_spec 128 (subj k t) []); [rewrite subj_dot, A, B; reflexivity|lia|rewrite A; cbn [app]; lia|rewrite B; lia].
Qed.

(** * lists and maps *)
Lemma index_from_range l k : forall i, index_from l k i = -1 \/ i <= index_from l k i < i + Z.of_nat (List.length l).
Proof.
  induction l as [|x l IH]; intros i; [now left|]. cbn [index_from List.length]. destruct (same_name k x); [right; lia|].
  destruct (IH (i + 1)); [now left|right; lia].
Qed.
Lemma index_from_some l k : forall i, (0 <= i) -> index_from l k i <> -1 ->
  exists x, nth_error l (Z.to_nat (index_from l k i - i)) = Some x /\ same_name k x = true.
Proof.
  induction l as [|x l IH]; intros i P H; [now cbn in H|]. cbn [index_from] in *. destruct (same_name k x) eqn:E.
  - exists x. replace (i - i) with 0 by lia. split; [reflexivity|exact E].
  - destruct (IH (i + 1) ltac:(lia) H) as (y & A & B). exists y. split; [|exact B].
    destruct (index_from_range l k (i + 1)) as [|R]; [contradiction|].
    replace (Z.to_nat (index_from l k (i + 1) - i)) with (S (Z.to_nat (index_from l k (i + 1) - (i + 1)))) by lia. exact A.
Qed.
Lemma index_from_seen l k : forall i, 0 <= i -> (0 <=? index_from l k i) = existsb (same_name k) l.
Proof.
  induction l as [|x l IH]; intros i P; [reflexivity|]. cbn [index_from existsb]. destruct (same_name k x); [cbn; lia|]. apply IH. lia.
Qed.
Lemma index_geti l k : 0 <= index_of l k -> exists x, geti l (index_of l k) = Some x /\ same_name k x = true.
Proof.
  intros H. unfold index_of in *. destruct (index_from_some l k 0 ltac:(lia) ltac:(lia)) as (x & A & B). exists x. split; [|exact B].
  unfold geti. destruct (index_from_range l k 0) as [|R]; [lia|]. rewrite Z.sub_0_r in A.
  replace ((0 <=? index_from l k 0) && (index_from l k 0 <? Z.of_nat (List.length l))) with true by lia. exact A.
Qed.
Lemma geti_app {A} (l r : list A) i x : geti l i = Some x -> geti (l ++ r) i = Some x.
Proof.
  unfold geti. destruct ((0 <=? i) && (i <? Z.of_nat (List.length l))) eqn:E; [|discriminate]. intros H.
  rewrite app_length. replace ((0 <=? i) && (i <? Z.of_nat (List.length l + List.length r))) with true by lia.
  rewrite nth_error_app1; [exact H|lia].
Qed.
(** the table at the index of its name *)
Lemma tab_find l s : forall i, (0 <= i) ->
  match size_of l s with
  | None => index_from (map fst l) s i = -1
  | Some n => exists x, nth_error l (Z.to_nat (index_from (map fst l) s i - i)) = Some (x, n) /\ same_name s x = true /\
                i <= index_from (map fst l) s i < i + Z.of_nat (List.length l)
  end.
Proof.
  induction l as [|[x n] l IH]; intros i P; [reflexivity|]. cbn [size_of map fst index_from List.length]. destruct (same_name s x) eqn:E.
  - exists x. replace (i - i) with 0 by lia. split; [reflexivity|]. split; [exact E|lia].
  - specialize (IH (i + 1) ltac:(lia)). destruct (size_of l s) as [m|]; [|exact IH]. destruct IH as (y & A & B & C). exists y.
    split; [|split; [exact B|lia]].
    replace (Z.to_nat (index_from (map fst l) s (i + 1) - i)) with (S (Z.to_nat (index_from (map fst l) s (i + 1) - (i + 1)))) by lia. exact A.
Qed.
Lemma tab_geti l s : match size_of l s with
  | None => geti l (index_of (map fst l) s) = None
  | Some n => exists x, geti l (index_of (map fst l) s) = Some (x, n) /\ same_name s x = true
  end.
Proof.
  pose proof (tab_find l s 0 ltac:(lia)) as H. unfold index_of, geti. destruct (size_of l s) as [n|].
  - destruct H as (x & A & B & C). exists x. rewrite Z.sub_0_r in A.
    replace ((0 <=? index_from (map fst l) s 0) && (index_from (map fst l) s 0 <? Z.of_nat (List.length l))) with true by lia. auto.
  - rewrite H. reflexivity.
Qed.
Lemma size_cong l s s' : low s = low s' -> size_of l s = size_of l s'.
Proof. intros E. induction l as [|[x n] l IH]; [reflexivity|]. cbn [size_of]. rewrite (same_cong_l _ _ x E), IH. reflexivity. Qed.
Lemma set_tab_size l s n t : size_of (set_tab l s n) t = if same_name t s then Some n else size_of l t.
Proof.
  induction l as [|[x m] l IH]; [reflexivity|]. cbn [set_tab fst]. destruct (same_name s x) eqn:E.
  - cbn [size_of]. destruct (same_name t s) eqn:F; [reflexivity|]. apply same_low in E. rewrite <- (same_cong_r s x t E), F. reflexivity.
  - cbn [size_of]. rewrite IH. destruct (same_name t x) eqn:G; [|reflexivity]. destruct (same_name t s) eqn:F; [|reflexivity].
    apply same_low in F, G. enough (same_name s x = true) by congruence. apply same_low. congruence.
Qed.
Lemma set_tab_geti l s n : (forall m, size_of l s = Some m -> m = n) -> forall i x m, geti l i = Some (x, m) -> size_of l x = Some m ->
  exists x', geti (set_tab l s n) i = Some (x', m) /\ same_name x' x = true.
Proof.
  intros ST i x m G Z. unfold geti in *. destruct ((0 <=? i) && (i <? Z.of_nat (List.length l))) eqn:R; [|discriminate].
  assert (N : forall l j, nth_error l j = Some (x, m) -> (same_name s x = true -> m = n) ->
    exists x', nth_error (set_tab l s n) j = Some (x', m) /\ same_name x' x = true).
  { clear. induction l as [|[y p] l IH]; intros j H Q; [destruct j; discriminate|]. cbn [set_tab fst]. destruct (same_name s y) eqn:E.
    - destruct j as [|j]; cbn [nth_error] in *; [injection H as -> ->; exists s; rewrite (Q E); auto|exists x; split; [exact H|apply same_refl']].
    - destruct j as [|j]; cbn [nth_error] in *; [injection H as -> ->; exists x; split; [reflexivity|apply same_refl']|apply IH; assumption]. }
  assert (LE : (List.length l <= List.length (set_tab l s n))%nat).
  { clear. induction l as [|[y p] l IH]; [cbn; lia|]. cbn [set_tab fst]. destruct (same_name s y); cbn [List.length]; lia. }
  destruct (N l (Z.to_nat i) G) as (x' & A & B).
  - intros E. apply same_low in E. apply ST. rewrite (size_cong l s x E). exact Z.
  - exists x'. split; [|exact B]. replace ((0 <=? i) && (i <? Z.of_nat (List.length (set_tab l s n)))) with true by lia. exact A.
Qed.

(** * the data *)
Definition val (data : list (list Z * nlist)) (x : list Z) : list Z :=
  match find_data data x with Some (_, recs) => List.concat recs | None => [] end.
Definition data_ok (tabs : list (list Z * nat)) (data : list (list Z * nlist)) : Prop :=
  NoDup (map (fun x => low (fst x)) data) /\
  Forall (fun x => exists kn sn, fst x = subj kn sn /\ has DOT kn = false /\ (List.length (fst x) < 128)%nat /\ size_of tabs sn = Some (fst (snd x))) data.
Lemma find_put data x v y : find_data (put_data data x v) y = if same_name y x then Some v else find_data data y.
Proof.
  induction data as [|[a w] data IH]; [reflexivity|]. cbn [put_data]. destruct (same_name x a) eqn:E.
  - cbn [find_data]. apply same_low in E. rewrite (same_cong_r x a y E). destruct (same_name y a); reflexivity.
  - cbn [find_data]. rewrite IH. destruct (same_name y a) eqn:F; [|reflexivity]. destruct (same_name y x) eqn:G; [|reflexivity].
    apply same_low in F, G. enough (same_name x a = true) by congruence. apply same_low. congruence.
Qed.
Lemma put_keys data x v : map (fun y => low (fst y)) (put_data data x v) =
    (if existsb (fun y => same_name x (fst y)) data then map (fun y => low (fst y)) data else map (fun y => low (fst y)) data ++ [low x]).
Proof.
  induction data as [|[a w] data IH]; [reflexivity|]. cbn [put_data existsb fst]. destruct (same_name x a) eqn:E.
  - reflexivity.
  - cbn [map fst]. rewrite IH. cbn [orb]. destruct (existsb _ data); reflexivity.
Qed.
Lemma find_in data x v : find_data data x = Some v -> exists a, In (a, v) data /\ same_name x a = true.
Proof.
  induction data as [|[a w] data IH]; [discriminate|]. cbn [find_data]. destruct (same_name x a) eqn:E.
  - intros [= <-]. exists a. split; [now left|exact E].
  - intros H. destruct (IH H) as (b & A & B). exists b. split; [now right|exact B].
Qed.
Lemma in_put data x v y : In y (put_data data x v) -> In y data \/ (exists a, y = (a, v) /\ low a = low x /\ (a = x \/ In a (map fst data))).
Proof.
  induction data as [|[a w] data IH]; cbn [put_data].
  - intros [<-|[]]. right. exists x. auto.
  - destruct (same_name x a) eqn:E.
    + intros [<-|H]; [|left; now right]. right. exists a. apply same_low in E. split; [reflexivity|]. split; [congruence|]. right. now left.
    + intros [<-|H]; [left; now left|]. destruct (IH H) as [H'|(b & A & B & C)]; [left; now right|]. right. exists b. split; [exact A|]. split; [exact B|].
      destruct C; [now left|right; now right].
Qed.

Lemma firstn_add {A} (a b : nat) : forall l : list A, firstn (a + b) l = firstn a l ++ firstn b (skipn a l).
Proof. induction a as [|a IH]; intros [|x l]; cbn; [reflexivity|reflexivity|now rewrite firstn_nil|now rewrite IH]. Qed.
Lemma cut_ok n b : forall c i, ((i + c) * n <= List.length b)%nat ->
  exists rs, cut n n b c i = Some rs /\ List.concat rs = firstn (c * n) (skipn (i * n) b).
Proof.
  induction c as [|c IH]; intros i L; [exists []; split; reflexivity|].
  cbn [cut]. destruct (IH (S i) ltac:(lia)) as (rs & -> & R). unfold slice.
  assert (X : ((i * n + n) <= List.length b)%nat) by nia.
  replace (Nat.leb (i * n + n) (List.length b)) with true by (symmetry; apply Nat.leb_le; exact X).
  eexists. split; [reflexivity|]. cbn [List.concat]. rewrite R.
  replace (S i * n)%nat with (n + i * n)%nat by lia. rewrite <- skipn_skipn'.
  replace (S c * n)%nat with (n + c * n)%nat by lia. rewrite firstn_add. reflexivity.
Qed.
Lemma cut_whole n b : (0 < n)%nat -> exists rs, cut n n b (List.length b / n) 0 = Some rs /\ List.concat rs = whole n b.
Proof.
  intros P. destruct (cut_ok n b (List.length b / n) 0) as (rs & A & B).
  - cbn [Nat.add]. rewrite Nat.mul_comm. apply Nat.mul_div_le. lia.
  - exists rs. split; [exact A|]. rewrite B. reflexivity.
Qed.
Definition tabs_ok (tabs : list (list Z * nat)) : Prop := Forall (fun x => (0 < snd x)%nat) tabs.
Lemma tabs_pos tabs s n : tabs_ok tabs -> size_of tabs s = Some n -> (0 < n)%nat.
Proof.
  intros T. induction T as [|[x m] l H T IH]; [discriminate|]. cbn [size_of]. destruct (same_name s x); [intros [= <-]; exact H|exact IH].
Qed.
Lemma nodup_snoc {A} (l : list A) x : NoDup l -> ~ In x l -> NoDup (l ++ [x]).
Proof.
  intros N H. induction N as [|y l I N IH]; cbn [app]; [constructor; [intros []|constructor]|]. constructor.
  - rewrite in_app_iff. intros [J|[J|[]]]; [exact (I J)|]. apply H. left. exact (eq_sym J).
  - apply IH. intros J. apply H. now right.
Qed.
Lemma make_ok tabs data kn sn size b : data_ok tabs data -> tabs_ok tabs -> has DOT kn = false -> (List.length (subj kn sn) < 128)%nat ->
  size_of tabs sn = Some size ->
  exists d', make_data data kn sn size b = Some d' /\ data_ok tabs d' /\
    forall y, val d' y = val data y ++ (if same_name y (subj kn sn) then whole size b else []).
Proof.
  intros (ND & FA) T D L Z. unfold make_data. change (kn ++ DOT :: sn) with (subj kn sn). rewrite (firstn_all2 (n := 127)) by lia.
  assert (N : exists recs, match find_data data (subj kn sn) with Some v => v | None => (size, []) end = (size, recs) /\ val data (subj kn sn) = List.concat recs).
  { unfold val. destruct (find_data data (subj kn sn)) as [[n recs]|] eqn:F; [|exists []; auto]. exists recs. split; [|reflexivity]. f_equal.
    destruct (find_in _ _ _ F) as (a & I & S). rewrite Forall_forall in FA. destruct (FA _ I) as (k1 & s1 & A & B & C & E). cbn [fst snd] in *. subst a.
    rewrite same_subj in S by assumption. apply andb_true_iff in S as [_ S]. apply same_low in S. rewrite (size_cong tabs sn s1 S) in Z. congruence. }
  destruct N as (recs & -> & V). destruct (cut_whole size b (tabs_pos _ _ _ T Z)) as (rs & -> & R).
  eexists. split; [reflexivity|]. split; [split|].
  - rewrite put_keys. destruct (existsb _ data) eqn:E; [exact ND|]. apply nodup_snoc; [exact ND|].
    intros I. apply in_map_iff in I as ([a w] & A & I). cbn [fst] in A.
      enough (existsb (fun y => same_name (subj kn sn) (fst y)) data = true) by congruence. apply existsb_exists. exists (a, w). split; [exact I|].
      apply same_low. cbn [fst]. congruence.
  - apply Forall_forall. intros y I. rewrite Forall_forall in FA. destruct (in_put _ _ _ _ I) as [I'|(a & -> & A & B)]; [exact (FA _ I')|]. cbn [fst snd].
    destruct B as [->|B]; [exists kn, sn; auto|]. apply in_map_iff in B as ([a' w] & E & I'). cbn [fst] in E. subst a'.
    destruct (FA _ I') as (k1 & s1 & E1 & E2 & E3 & E4). cbn [fst snd] in *. exists k1, s1. split; [exact E1|]. split; [exact E2|]. split; [exact E3|].
    subst a. apply same_low in A. rewrite same_subj in A by assumption. apply andb_true_iff in A as [_ A]. apply same_low in A.
    rewrite (size_cong tabs s1 sn A). exact Z.
  - intros y. unfold val in *. rewrite find_put. destruct (same_name y (subj kn sn)) eqn:E; [|now rewrite app_nil_r].
    rewrite concat_app, R. f_equal. apply same_low in E. rewrite <- V.
    assert (FC : forall l, find_data l y = find_data l (subj kn sn)).
    { induction l as [|[a w] l IH]; [reflexivity|]. cbn [find_data]. rewrite (same_cong_l _ _ a E), IH. reflexivity. }
    rewrite FC. reflexivity.
Qed.

(** * items of the queue *)
Definition item_ok (keys : list (list Z)) (tabs : list (list Z * nat)) (x : qitem) (e : entry) : Prop :=
  let '(kidx, sidx, b) := x in
  has DOT (e_key e) = false /\ (List.length (subj (e_key e) (e_tab e)) < 128)%nat /\
  (exists sn n, geti tabs sidx = Some (sn, n) /\ same_name sn (e_tab e) = true /\ size_of tabs sn = Some n /\ e_bytes e = whole n b) /\
  (if e_first e then kidx = -1 else exists kn, geti keys kidx = Some kn /\ same_name kn (e_key e) = true).
Lemma content_app a b k t : content (a ++ b) k t = content a k t ++ content b k t.
Proof. unfold content. rewrite map_app, concat_app. reflexivity. Qed.
Lemma later_app a b : later (a ++ b) = later a ++ later b.
Proof. apply filter_app. Qed.
Lemma file_ok keys tabs data x e : data_ok tabs data -> tabs_ok tabs -> item_ok keys tabs x e ->
  exists d', file_item keys tabs data x = Some d' /\ data_ok tabs d' /\
    forall k t, has DOT k = false -> val d' (subj k t) = val data (subj k t) ++ content (later [e]) k t.
Proof.
  intros DO T. destruct x as [[kidx sidx] b]. intros (D & L & (sn & n & G & S & Z & B) & K). cbn [file_item]. rewrite G.
  unfold later, content. cbn [filter]. destruct (e_first e) eqn:F; cbn [negb].
  - subst kidx. cbn. exists data. split; [reflexivity|]. split; [exact DO|]. intros. now rewrite app_nil_r.
  - destruct K as (kn & GK & SK). rewrite GK. apply same_low in S, SK.
    assert (Dk : has DOT kn = false) by (rewrite <- low_dot, SK, low_dot; exact D).
    assert (Lk : (List.length (subj kn sn) < 128)%nat).
    { unfold subj in *. rewrite app_length in *. cbn [List.length] in *. apply low_len in S, SK. lia. }
    destruct (make_ok tabs data kn sn n b DO T Dk Lk Z) as (d' & A & A' & V). exists d'. split; [exact A|]. split; [exact A'|].
    intros k t H. rewrite V, same_subj by assumption. cbn [map List.concat of_entry]. unfold of_entry.
    rewrite (same_cong_r _ _ k SK), (same_cong_r _ _ t S), B, app_nil_r. reflexivity.
Qed.
Lemma file_all_ok keys tabs : tabs_ok tabs -> forall l es data, data_ok tabs data -> Forall2 (item_ok keys tabs) l es ->
  exists d', file_all keys tabs data l = Some d' /\ data_ok tabs d' /\
    forall k t, has DOT k = false -> val d' (subj k t) = val data (subj k t) ++ content (later es) k t.
Proof.
  intros T. induction l as [|x l IH]; intros es data DO F; inversion F; subst.
  - exists data. split; [reflexivity|]. split; [exact DO|]. intros. cbn. now rewrite app_nil_r.
  - cbn [file_all]. destruct (file_ok keys tabs data x y DO T H1) as (d1 & -> & D1 & V1). destruct (IH _ d1 D1 H3) as (d2 & A & B & V2).
    exists d2. split; [exact A|]. split; [exact B|]. intros k t H. rewrite V2, V1 by exact H. rewrite <- app_assoc. f_equal.
    change (y :: l') with ([y] ++ l'). rewrite later_app, content_app. reflexivity.
Qed.
(** what is written when the data are saved *)
Definition written (w : list (list Z * list Z * list Z)) (k t : list Z) : list Z :=
  List.concat (map (fun x => if same_name k (fst (fst x)) && same_name t (snd (fst x)) then snd x else []) w).
Lemma writes_ok tabs data : data_ok tabs data -> exists w, writes data = Some w /\
  (forall k t, has DOT k = false -> written w k t = val data (subj k t)) /\
  NoDup (map (fun x => low (subj (fst (fst x)) (snd (fst x)))) w) /\ Forall (fun x => snd x <> [] /\ has DOT (fst (fst x)) = false) w /\
  incl (map (fun x => low (subj (fst (fst x)) (snd (fst x)))) w) (map (fun x => low (fst x)) data).
Proof.
  intros (ND & FA). induction data as [|[a [n recs]] data IH].
  - exists []. split; [reflexivity|]. split; [reflexivity|]. split; [constructor|]. split; [constructor|intros x []].
  - inversion FA as [|x l (kn & sn & E1 & E2 & E3 & E4) FA']; subst. inversion ND as [|x l NI ND']; subst. cbn [fst snd] in *. subst a.
    destruct (IH ND' FA') as (w & W & V & NW & FW & IW). cbn [writes]. rewrite divide_subj by assumption. rewrite W.
    eexists. split; [reflexivity|]. 
    assert (VV : forall k t, has DOT k = false -> val ((subj kn sn, (n, recs)) :: data) (subj k t) =
      (if same_name k kn && same_name t sn then List.concat recs else []) ++ written w k t).
    { intros k t H. unfold val. cbn [find_data]. rewrite same_subj by assumption. rewrite V by exact H. destruct (same_name k kn && same_name t sn) eqn:E; [|reflexivity].
      unfold val. destruct (find_data data (subj k t)) as [[m r]|] eqn:F; [|now rewrite app_nil_r]. exfalso. apply NI.
      destruct (find_in _ _ _ F) as (a & I & S). apply in_map_iff. exists (a, (m, r)). split; [|exact I]. cbn [fst]. apply same_low in S.
      rewrite <- S, !low_subj. apply andb_true_iff in E as [A B]. apply same_low in A, B. rewrite A, B. reflexivity. }
    destruct (List.concat recs) as [|c r] eqn:R.
    + split; [|split; [exact NW|split; [exact FW|]]].
      * intros k t H. rewrite VV by exact H. destruct (same_name k kn && same_name t sn); reflexivity.
      * intros x I. right. apply IW, I.
    + split; [|split; [|split]].
      * intros k t H. rewrite VV by exact H. unfold written. cbn [map List.concat fst snd]. reflexivity.
      * cbn [map fst snd]. constructor; [|exact NW]. intros I. apply NI, IW, I.
      * constructor; [|exact FW]. cbn [fst snd]. split; [discriminate|exact E2].
      * cbn [map fst snd]. intros x [<-|I]; [left; reflexivity|right; apply IW, I].
Qed.

(** * the invariant *)
Definition inv (d : day) (s : st) : Prop :=
  s_open s = d_open d /\ s_date s = d_date d /\
  (forall t, size_of (s_tabs s) t = size_of (d_tabs d) t) /\ tabs_ok (s_tabs s) /\
  (forall k, (0 <=? index_of (s_keys s) k) = seen (d_keys d) k) /\
  exists filed left, d_now d = filed ++ left /\ data_ok (s_tabs s) (s_data s) /\
    Forall2 (item_ok (s_keys s) (s_tabs s)) (s_read s ++ s_queue s) left /\ (d_open d = false -> left = []) /\
    forall k t, has DOT k = false -> val (s_data s) (subj k t) = content (later filed) k t.
Lemma inv_start tabs : tabs_ok tabs -> inv (day0 tabs) (st0 tabs).
Proof.
  intros T. unfold inv. cbn. refine (conj eq_refl (conj eq_refl (conj (fun _ => eq_refl) (conj T (conj (fun _ => eq_refl) _))))).
  exists [], []. split; [reflexivity|]. split; [split; constructor|]. split; [constructor|]. split; [reflexivity|reflexivity].
Qed.
Lemma inv_wlog d s today c : inv d s -> inv d (wlog today c s).
Proof. intros H. exact H. Qed.
Lemma inv_take d s : inv d s -> inv d (take s).
Proof.
  unfold inv, take. destruct (s_read s) as [|x r] eqn:E; [|intros H; rewrite E; exact H]. cbn. rewrite app_nil_r. exact (fun H => H).
Qed.
Lemma inv_file d s : inv d s -> exists s', file_one s = Some s' /\ inv d s' /\ s_read s' = tl (s_read s) /\ s_queue s' = s_queue s /\ s_open s' = s_open s.
Proof.
  intros (O & DT & TB & TO & KS & filed & lf & N & DO & F & C & V). unfold file_one. destruct (s_read s) as [|x r] eqn:E.
  - exists s. split; [reflexivity|]. rewrite E. cbn [tl]. split; [|auto]. unfold inv. rewrite E. eauto 20.
  - cbn [app] in F. inversion F as [|a e l es IO F']; subst. destruct (file_ok _ _ _ _ _ DO TO IO) as (d' & -> & DO' & V').
    eexists. split; [reflexivity|]. cbn. split; [|auto]. unfold inv. cbn. refine (conj O (conj DT (conj TB (conj TO (conj KS _))))).
    exists (filed ++ [e]), es. split; [rewrite <- app_assoc; exact N|]. split; [exact DO'|]. split; [exact F'|]. split.
    + intros H. specialize (C H). discriminate.
    + intros k t H. rewrite V', V, later_app, content_app by exact H. reflexivity.
Qed.
Lemma item_mono keys keys' tabs tabs' x e : (forall i k, geti keys i = Some k -> geti keys' i = Some k) ->
  (forall i sn n, geti tabs i = Some (sn, n) -> size_of tabs sn = Some n -> exists sn', geti tabs' i = Some (sn', n) /\ same_name sn' sn = true /\ size_of tabs' sn' = Some n) ->
  item_ok keys tabs x e -> item_ok keys' tabs' x e.
Proof.
  intros K T. destruct x as [[kidx sidx] b]. intros (D & L & (sn & n & G & S & Z & B) & KX). split; [exact D|]. split; [exact L|]. split.
  - destruct (T _ _ _ G Z) as (sn' & G' & S' & Z'). exists sn', n. split; [exact G'|]. split; [|auto]. apply same_low in S, S'. apply same_low. congruence.
  - destruct (e_first e); [exact KX|]. destruct KX as (kn & A & B'). exists kn. split; [apply K, A|exact B'].
Qed.
Lemma Forall2_mono {A B} (P Q : A -> B -> Prop) l r : (forall a b, P a b -> Q a b) -> Forall2 P l r -> Forall2 Q l r.
Proof. intros H F. induction F; constructor; auto. Qed.
Lemma add_key_seen keys k j : (0 <=? index_of (add_key keys k) j) = same_name j k || (0 <=? index_of keys j).
Proof.
  unfold add_key, index_of. destruct (index_from keys k 0 <? 0) eqn:E.
  - rewrite !index_from_seen by lia. rewrite existsb_app. cbn [existsb]. rewrite orb_false_r. apply orb_comm.
  - destruct (same_name j k) eqn:S; [|reflexivity]. cbn [orb]. rewrite index_from_seen in * by lia.
    assert (H : existsb (same_name k) keys = true) by (rewrite <- (index_from_seen keys k 0) by lia; lia).
    apply existsb_exists in H as (y & A & B). apply existsb_exists. exists y. split; [exact A|]. apply same_low in B, S. apply same_low. congruence.
Qed.
Lemma add_key_geti keys k i x : geti keys i = Some x -> geti (add_key keys k) i = Some x.
Proof. unfold add_key. destruct (_ <? 0); [apply geti_app|auto]. Qed.

Lemma stop_ok d s replay ok today : inv d s -> exists data w, writes data = Some w /\
  write_stop replay ok today s = Some (mks (s_open s) (s_date s) (s_keys s) (s_tabs s) [] [] [] false (s_mark s)
     (if replay then s_logs s else remove_log (if s_mark s =? 0 then today else s_mark s) (s_logs s)) (if ok then s_saved s ++ w else s_saved s)) /\
  (forall k t, has DOT k = false -> written w k t = content (later (d_now d)) k t) /\
  NoDup (map (fun x => low (subj (fst (fst x)) (snd (fst x)))) w) /\ Forall (fun x => snd x <> [] /\ has DOT (fst (fst x)) = false) w.
Proof.
  intros (O & DT & TB & TO & KS & filed & lf & N & DO & F & C & V).
  destruct (file_all_ok _ _ TO _ _ _ DO F) as (data & A & DO' & V'). destruct (writes_ok _ _ DO') as (w & W & VW & ND & FW & _).
  exists data, w. split; [exact W|]. unfold write_stop. rewrite A, W. split; [reflexivity|]. split; [|auto].
  intros k t H. rewrite VW, V', V, N, later_app, content_app by exact H. reflexivity.
Qed.
Lemma inv_proc d s c replay ok today : inv d s -> fits c -> steady_tab (d_tabs d) c ->
  exists s', proc replay ok today s c = Some s' /\ inv (day_step d c) s'.
Proof.
  intros I FC ST. pose proof I as (O & DT & TB & TO & KS & filed & lf & N & DO & F & C & V). destruct c as [t n|x|text subject b| |]; cbn [proc day_step].
  - (* Create *)
    eexists. split; [reflexivity|]. cbn [fits steady_tab] in *. unfold inv. cbn.
    assert (ST' : forall m, size_of (s_tabs s) t = Some m -> m = n) by (intros m H; rewrite TB in H; apply ST, H).
    assert (SZ : forall y m, size_of (s_tabs s) y = Some m -> size_of (set_tab (s_tabs s) t n) y = Some m).
    { intros y m H. rewrite set_tab_size. destruct (same_name y t) eqn:E; [|exact H]. apply same_low in E. rewrite (size_cong _ _ _ E) in H. rewrite (ST' _ H). reflexivity. }
    refine (conj O (conj DT (conj _ (conj _ (conj KS _))))).
    + intros y. rewrite set_tab_size, TB. reflexivity.
    + clear -TO FC. unfold tabs_ok in *. induction TO as [|[y m] l H TO IH]; [constructor; [exact FC|constructor]|]. cbn [set_tab fst].
      destruct (same_name t y); constructor; trivial.
    + exists filed, lf. split; [exact N|]. split; [|split; [|split; [exact C|exact V]]].
      * destruct DO as (ND & FA). split; [exact ND|]. eapply Forall_impl; [|exact FA]. intros y (kn & sn & A & B & D & E). exists kn, sn.
        split; [exact A|]. split; [exact B|]. split; [exact D|]. apply SZ, E.
      * eapply Forall2_mono; [|exact F]. intros a e H. eapply item_mono; [| |exact H]; [auto|]. intros i sn m G Z.
        destruct (set_tab_geti _ _ _ ST' i sn m G Z) as (sn' & A & B). exists sn'. split; [exact A|]. split; [exact B|]. apply SZ. apply same_low in B. rewrite (size_cong _ _ _ B). exact Z.
  - (* Start *)
    rewrite O. destruct (d_open d) eqn:OD.
    + rewrite <- DT. destruct (x =? s_date s) eqn:E1; [exists s; split; [reflexivity|exact I]|]. destruct (0 <? s_date s) eqn:E2; cbn [orb].
      * replace (s_date s <=? 0) with false by lia. destruct (stop_ok d s replay ok today I) as (data & w & _ & -> & _). cbn [option_map]. eexists. split; [reflexivity|].
        unfold inv, with_day. cbn. refine (conj eq_refl (conj eq_refl (conj TB (conj TO (conj KS _))))). exists [], []. split; [reflexivity|].
        split; [split; constructor|]. split; [constructor|]. split; reflexivity.
      * replace (s_date s <=? 0) with true by lia. exists s. split; [reflexivity|exact I].
    + eexists. split; [reflexivity|]. unfold inv, with_day. cbn. refine (conj eq_refl (conj eq_refl (conj TB (conj TO (conj KS _))))).
      exists filed, lf. split; [exact N|]. split; [exact DO|]. split; [exact F|]. split; [discriminate|exact V].
  - (* Put *)
    destruct b as [|b0 b']; [exists s; split; [reflexivity|]; destruct (size_of _ _); exact I|].
    cbn [fits] in FC. destruct FC as (L & HD). pose proof (dot_split _ HD) as SP. set (k := before_dot subject) in *. set (t := after_dot subject) in *.
    assert (DK : has DOT k = false) by apply before_nodot.
    assert (DV : divide 128 subject [] = Some (2, k, t)) by (rewrite SP; apply divide_subj; [exact DK|rewrite <- SP; exact L]).
    assert (LS : (List.length (subj k t) < 128)%nat) by (rewrite <- SP; exact L).
    pose proof (tab_geti (s_tabs s) t) as TG. rewrite TB in TG.
    destruct (text && negb (s_open s)) eqn:TX.
    { exists s. split; [reflexivity|]. apply andb_true_iff in TX as [-> H2]. rewrite O in H2. destruct (d_open d) eqn:OD; [discriminate|].
      destruct (size_of (d_tabs d) t); exact I. }
    rewrite DV. destruct (size_of (d_tabs d) t) as [n|] eqn:SZ; [|rewrite TG; exists s; split; [reflexivity|exact I]].
    destruct TG as (dn & TG & SN). rewrite TG. rewrite O. destruct (d_open d) eqn:OD.
    + eexists. split; [reflexivity|]. unfold inv. cbn [s_open s_date s_keys s_tabs s_queue s_read s_data d_open d_date d_tabs d_keys d_now]. refine (conj eq_refl (conj DT (conj TB (conj TO (conj _ _))))).
      * intros j. rewrite add_key_seen, KS. unfold seen. reflexivity.
      * exists filed, (lf ++ [mke k t (whole n (b0 :: b')) (negb (seen (d_keys d) k))]). split; [rewrite N, <- app_assoc; reflexivity|]. split; [exact DO|].
        split; [|split; [discriminate|exact V]]. rewrite app_assoc. apply Forall2_app.
        -- eapply Forall2_mono; [|exact F]. intros a e H. eapply item_mono; [| |exact H]; [intros; now apply add_key_geti|].
           intros i sn m G Z. exists sn. split; [exact G|]. split; [apply same_refl'|exact Z].
        -- constructor; [|constructor]. cbn [item_ok e_key e_tab e_bytes e_first]. split; [exact DK|]. split; [exact LS|]. split.
           ++ exists dn, n. split; [exact TG|]. apply same_low in SN. split; [now apply same_low|]. split; [rewrite <- (size_cong _ _ _ SN), TB; exact SZ|reflexivity].
           ++ destruct (seen (d_keys d) k) eqn:SE; cbn [negb].
              ** rewrite <- KS in SE. destruct (index_geti (s_keys s) k ltac:(lia)) as (kn & A & B). exists kn. split; [apply add_key_geti, A|].
                 apply same_low in B. now apply same_low.
              ** rewrite <- KS in SE. unfold index_of in *. destruct (index_from_range (s_keys s) k 0); lia.
    + destruct text; [cbn in TX; rewrite O in TX; discriminate|].
      assert (LN : low t = low dn) by (apply same_low; exact SN).
      assert (LD : (List.length (subj k dn) < 128)%nat).
      { unfold subj in *. rewrite app_length in *. cbn [List.length] in *. apply low_len in LN. lia. }
      assert (SZ' : size_of (s_tabs s) dn = Some n) by (rewrite <- (size_cong _ _ _ LN), TB; exact SZ).
      destruct (make_ok (s_tabs s) (s_data s) k dn n (b0 :: b') DO TO DK LD SZ') as (d' & -> & DO' & V'). eexists. split; [reflexivity|].
      specialize (C eq_refl). subst lf. unfold inv. cbn [s_open s_date s_keys s_tabs s_queue s_read s_data d_open d_date d_tabs d_keys d_now]. refine (conj eq_refl (conj DT (conj TB (conj TO (conj _ _))))).
      * intros j. rewrite add_key_seen, KS. unfold seen. reflexivity.
      * exists (filed ++ [mke k t (whole n (b0 :: b')) false]), []. split; [rewrite N, !app_nil_r; reflexivity|]. split; [exact DO'|].
        split; [inversion F; constructor|]. split; [reflexivity|]. intros k1 t1 H. rewrite V', V, later_app, content_app, same_subj by assumption.
        f_equal. unfold content, later, of_entry. cbn [filter e_first negb map List.concat e_key e_tab e_bytes]. rewrite app_nil_r, (same_cong_r dn t t1) by congruence. reflexivity.
  - (* Stop *)
    rewrite O. destruct (d_open d) eqn:OD; [|exists s; split; [reflexivity|exact I]].
    destruct (stop_ok d s replay ok today I) as (data & w & _ & -> & _). cbn [option_map]. eexists. split; [reflexivity|].
    unfold inv, with_day. cbn. refine (conj eq_refl (conj eq_refl (conj TB (conj TO (conj KS _))))). exists [], []. split; [reflexivity|].
    split; [split; constructor|]. split; [constructor|]. split; reflexivity.
  - (* Save *)
    rewrite O. destruct (d_open d) eqn:OD; [exists s; split; [reflexivity|exact I]|]. destruct (writes_ok _ _ DO) as (w & -> & _). eexists. split; [reflexivity|]. revert I. unfold inv. rewrite O. exact (fun x => x).
Qed.
