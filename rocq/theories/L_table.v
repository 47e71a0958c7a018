(** Lemmas for tables: layout. *)
From Verif Require Import Base S_server S_map S_table M_dynamic M_table L_map L_incrzip.
From Coq Require Import ZifyBool ZifyNat Permutation.

Lemma good_space d : good_def d = true -> 1 <= df_len d <= 65535 /\ 1 <= df_count d <= 65535 /\ space d = df_len d * df_count d.
Proof. intros H. unfold space. rewrite H. unfold good_def in H. lia. Qed.
Lemma space_pos d : 0 <= space d.
Proof. unfold space. destruct (good_def d) eqn:E; [|lia]. pose proof (good_space d E). nia. Qed.
Lemma total_pos ds : 0 <= total ds.
Proof. induction ds as [|d r IH]; [cbn; lia|]. change (total (d :: r)) with (space d + total r). pose proof (space_pos d). lia. Qed.
Lemma total_app a b : total (a ++ b) = total a + total b.
Proof.
  induction a as [|d r IH]; [reflexivity|]. cbn [app]. change (total (d :: r ++ b)) with (space d + total (r ++ b)).
  change (total (d :: r)) with (space d + total r). lia.
Qed.

(** what a list of definitions still needs of name [n] *)
Definition named (n : list Z) (x : fdef * Z) : bool := same_name (df_name (fst x)) n.

Lemma places_in ds : forall off d o, In (d, o) (places off ds) -> good_def d = true /\ In d ds /\ off <= o /\ o + space d <= off + total ds.
Proof.
  induction ds as [|e r IH]; intros off d o H; [destruct H|].
  cbn [places] in H. change (total (e :: r)) with (space e + total r).
  pose proof (space_pos e). pose proof (total_pos r).
  apply in_app_or in H. destruct H as [H|H].
  - destruct (good_def e && _) eqn:E; [|destruct H]. destruct H as [H|[]]. injection H as <- <-.
    apply andb_true_iff in E. destruct E as [E _]. split; [exact E|]. split; [left; reflexivity|]. lia.
  - destruct (IH _ _ _ H) as (A & B & C & D). split; [exact A|]. split; [right; exact B|]. lia.
Qed.

Lemma places_snoc d : forall ds off,
  places off (ds ++ [d]) =
  (if good_def d then filter (fun x => negb (named (df_name d) x)) (places off ds) ++ [(d, off + total ds)] else places off ds).
Proof.
  induction ds as [|e r IH]; intros off.
  - cbn. destruct (good_def d); cbn; rewrite ?Z.add_0_r; reflexivity.
  - cbn [places app]. rewrite IH, existsb_app. cbn [existsb]. rewrite orb_false_r.
    change (total (e :: r)) with (space e + total r). rewrite Z.add_assoc.
    destruct (good_def d) eqn:G; cbn [andb]; [|rewrite orb_false_r; reflexivity].
    rewrite filter_app, app_assoc.
    f_equal; f_equal.
    destruct (good_def e) eqn:Ge; cbn [andb]; [|reflexivity].
    destruct (existsb _ r); cbn [orb negb]; [reflexivity|].
    cbn [filter]. unfold named. cbn [fst].
    destruct (same_name (df_name e) (df_name d)); reflexivity.
Qed.

(** names of the places are pairwise different *)
Lemma same_name_lower a b : same_name a b = true <-> map lower a = map lower b.
Proof. unfold same_name. destruct (list_eq_dec Z.eq_dec _ _); split; congruence. Qed.
Lemma same_name_refl a : same_name a a = true.
Proof. apply same_name_lower. reflexivity. Qed.

Definition low (n : list Z) := map lower n.
Lemma places_nodup ds : forall off, NoDup (map (fun x => low (df_name (fst x))) (places off ds)).
Proof.
  induction ds as [|d r IH]; intros off; [constructor|].
  cbn [places]. destruct (good_def d && _) eqn:E; [|apply IH].
  cbn [app map]. constructor; [|apply IH].
  intros H. apply in_map_iff in H. destruct H as ([e o] & H1 & H2). cbn [fst] in H1.
  destruct (places_in _ _ _ _ H2) as (G & I & _).
  apply andb_true_iff in E. destruct E as [_ E]. apply negb_true_iff in E.
  assert (existsb (fun e0 => good_def e0 && same_name (df_name d) (df_name e0)) r = true); [|congruence].
  apply existsb_exists. exists e. split; [exact I|]. rewrite G. cbn.
  apply same_name_lower. symmetry. exact H1.
Qed.

(** places are apart *)
Lemma places_apart ds : forall off i j d o d' o',
  nth_error (places off ds) i = Some (d, o) -> nth_error (places off ds) j = Some (d', o') -> (i < j)%nat ->
  o + space d <= o'.
Proof.
  induction ds as [|e r IH]; intros off i j d o d' o' Hi Hj L; [destruct i; discriminate|].
  cbn [places] in Hi, Hj. destruct (good_def e && _) eqn:E; cbn [app] in Hi, Hj.
  - destruct j as [|j]; [lia|]. cbn in Hj. destruct i as [|i]; cbn in Hi.
    + injection Hi as <- <-. apply nth_error_In in Hj. apply places_in in Hj. lia.
    + eapply IH; [exact Hi|exact Hj|lia].
  - eapply IH; [exact Hi|exact Hj|exact L].
Qed.

(** * the table built by the loop *)
Definition entry (us : list tfield) (e : list Z * Z) : list Z * option tfield := (low (fst e), unit_of us (snd e)).
Definition want (x : fdef * Z) : list Z * option tfield := (low (df_name (fst x)), Some (make_unit (fst x) (snd x))).

Lemma unit_of_app us u p : 0 < p <= Z.of_nat (length us) -> unit_of (us ++ [u]) p = unit_of us p.
Proof. intros H. unfold unit_of. replace (p <=? 0) with false by lia. apply nth_error_app1. lia. Qed.
Lemma unit_of_new us u : unit_of (us ++ [u]) (Z.of_nat (length us) + 1) = Some u.
Proof.
  unfold unit_of. replace (_ <=? 0) with false by lia.
  rewrite nth_error_app2 by lia. replace (_ - _)%nat with O by lia. reflexivity.
Qed.

Lemma put_at_split l : forall i k v, position l k = Some i ->
  exists l1 k1 v1 l2, l = l1 ++ (k1, v1) :: l2 /\ put_at l i v = l1 ++ (k1, v) :: l2 /\ value_at l i = v1 /\
    low k1 = low k /\ (forall x, In x l1 -> low (fst x) <> low k).
Proof.
  induction l as [|[k1 v1] l IH]; intros i k v H; [discriminate|].
  cbn [position] in H. destruct (same_name k k1) eqn:E.
  - injection H as <-. exists [], k1, v1, l. repeat split; [symmetry; apply same_name_lower; exact E|intros x []].
  - destruct (position l k) as [j|] eqn:P; [|discriminate]. injection H as <-.
    destruct (IH j k v P) as (l1 & k2 & v2 & l2 & -> & B & C & D & F).
    exists ((k1, v1) :: l1), k2, v2, l2. cbn [put_at]. rewrite B. repeat split; [exact C|exact D|].
    intros x [<-|Hx]; [|apply F; exact Hx]. cbn. intros X.
    assert (same_name k k1 = true) by (apply same_name_lower; symmetry; exact X). congruence.
Qed.
Lemma position_none l k : position l k = None -> forall x, In x l -> low (fst x) <> low k.
Proof.
  induction l as [|[k1 v1] l IH]; intros H x Hx; [destruct Hx|].
  cbn in H. destruct (same_name k k1) eqn:E; [discriminate|].
  destruct (position l k) eqn:P; [discriminate|].
  destruct Hx as [<-|Hx]; [|apply IH; [reflexivity|exact Hx]].
  cbn. intros X. assert (same_name k k1 = true) by (apply same_name_lower; symmetry; exact X). congruence.
Qed.

Lemma filter_all {A} (f : A -> bool) l : (forall x, In x l -> f x = true) -> filter f l = l.
Proof.
  induction l as [|a l IH]; intros H; [reflexivity|]. cbn. rewrite (H a (or_introl eq_refl)). f_equal.
  apply IH. intros x Hx. apply H. right. exact Hx.
Qed.
Lemma perm_filter {A} (f : A -> bool) a b : Permutation a b -> Permutation (filter f a) (filter f b).
Proof.
  induction 1 as [|x a b H IH|x y a|a b c H1 IH1 H2 IH2]; cbn.
  - constructor.
  - destruct (f x); [constructor|]; exact IH.
  - destruct (f x), (f y); try (repeat constructor; fail); apply Permutation_refl.
  - eapply Permutation_trans; eauto.
Qed.

Record tinv (ds : list fdef) (t : table) : Prop := {
  i_size : t_size t = total ds;
  i_ptr : Forall (fun e => 0 < snd e <= Z.of_nat (length (t_units t))) (t_fields t);
  i_perm : Permutation (map (entry (t_units t)) (t_fields t)) (map want (layout ds)) }.

Lemma add_def_bad t d : good_def d = false -> add_def t d = t.
Proof.
  unfold good_def, add_def. intros H.
  destruct (df_style d =? 0) eqn:A; [reflexivity|].
  destruct (_ || _) eqn:B; [reflexivity|]. destruct ((65535 <? df_count d) || _) eqn:C; [reflexivity|]. lia.
Qed.
Definition add_good (t : table) (d : fdef) : table :=
    let u := make_unit d (t_size t) in
    let p := Z.of_nat (length (t_units t)) + 1 in
    let '(fs, _, fr) := mspec (t_fields t) (MSet (df_name d) p) in
    mkt (t_units t ++ [u]) (t_freed t ++ fr) fs
        (to_s 32 (t_size t + to_s 32 (Z.of_nat (f_len u) * Z.of_nat (f_count u))))
        (if (t_time t =? 0) && time_kind (f_style u) then p else t_time t)
        (if f_idx u then p else t_mindex t)
        (if f_only u then t_solely t ++ [p] else t_solely t).
Lemma add_def_good t d : good_def d = true -> add_def t d = add_good t d.
Proof.
  unfold good_def, add_def. intros H. fold (add_good t d).
  destruct (df_style d =? 0) eqn:A; [lia|].
  destruct (_ || _) eqn:B; [lia|]. destruct ((65535 <? df_count d) || _) eqn:C; [lia|]. reflexivity.
Qed.

Lemma make_unit_len d o : good_def d = true -> Z.of_nat (f_len (make_unit d o)) = df_len d /\ Z.of_nat (f_count (make_unit d o)) = df_count d.
Proof.
  intros G. destruct (good_space d G) as (A & B & _). cbn.
  rewrite !to_u_small by (change (2 ^ 16) with 65536; lia). lia.
Qed.

Lemma tinv_add ds t d : tinv ds t -> total (ds ++ [d]) <= 65536 -> tinv (ds ++ [d]) (add_def t d).
Proof.
  intros [S P M] T. destruct (good_def d) eqn:G.
  2:{ rewrite add_def_bad by exact G. rewrite total_app in T. constructor.
      - rewrite total_app. cbn. unfold space. rewrite G. lia.
      - exact P.
      - unfold layout. rewrite places_snoc, G. exact M. }
  rewrite add_def_good by exact G.
  destruct (good_space d G) as (G1 & G2 & G3). destruct (make_unit_len d (t_size t) G) as (L1 & L2).
  rewrite total_app in T. cbn [total fold_right] in T. fold (total []) in T. pose proof (total_pos ds).
  assert (Sz : to_s 32 (t_size t + to_s 32 (Z.of_nat (f_len (make_unit d (t_size t))) * Z.of_nat (f_count (make_unit d (t_size t))))) = total (ds ++ [d])).
  { rewrite L1, L2, <- G3. rewrite total_app. change (total [d]) with (space d + 0).
    assert (0 <= space d <= 65536) by (pose proof (space_pos d); lia).
    rewrite (to_s_small 32 (space d)) by (change (2 ^ (32 - 1)) with 2147483648; lia).
    rewrite to_s_small by (change (2 ^ (32 - 1)) with 2147483648; lia). lia. }
  unfold add_good. set (u := make_unit d (t_size t)) in *. set (p := Z.of_nat (length (t_units t)) + 1).
  cbn [mspec].
  assert (K : forall fs fr, Forall (fun e => 0 < snd e <= Z.of_nat (length (t_units t ++ [u]))) fs ->
     Permutation (map (entry (t_units t ++ [u])) fs) (map want (filter (fun x => negb (named (df_name d) x)) (layout ds)) ++ [(low (df_name d), Some u)]) ->
     forall a b c, tinv (ds ++ [d]) (mkt (t_units t ++ [u]) fr fs
        (to_s 32 (t_size t + to_s 32 (Z.of_nat (f_len u) * Z.of_nat (f_count u)))) a b c)).
  { intros fs fr F Q a b c. constructor; cbn [t_size t_units t_fields]; [exact Sz|exact F|].
    unfold layout. rewrite places_snoc, G, map_app. cbn [map]. unfold want at 2. cbn [fst snd].
    rewrite Z.add_0_l, <- S. exact Q. }
  assert (E0 : forall l, Forall (fun e => 0 < snd e <= Z.of_nat (length (t_units t))) l ->
     map (entry (t_units t ++ [u])) l = map (entry (t_units t)) l).
  { intros l Fl. apply map_ext_in. intros [k v] Hx. unfold entry. cbn [fst snd]. f_equal.
    apply unit_of_app. rewrite Forall_forall in Fl. apply (Fl _ Hx). }
  assert (Hp : 0 < p <= Z.of_nat (length (t_units t ++ [u]))) by (rewrite app_length; cbn [length]; lia).
  assert (Fw : forall l, Forall (fun e : list Z * Z => 0 < snd e <= Z.of_nat (length (t_units t))) l ->
     Forall (fun e => 0 < snd e <= Z.of_nat (length (t_units t ++ [u]))) l).
  { intros l. apply Forall_impl. intros e He. rewrite app_length. cbn [length]. lia. }
  assert (ND : NoDup (map fst (map (entry (t_units t)) (t_fields t)))).
  { apply (Permutation_NoDup (l := map fst (map want (layout ds)))).
    - apply Permutation_map, Permutation_sym, M.
    - rewrite map_map. apply (places_nodup ds 0). }
  pose (g := fun x : list Z * option tfield => if list_eq_dec Z.eq_dec (fst x) (low (df_name d)) then false else true).
  assert (Q0 : Permutation (filter g (map (entry (t_units t)) (t_fields t))) (map want (filter (fun x => negb (named (df_name d) x)) (layout ds)))).
  { eapply Permutation_trans; [apply perm_filter, M|].
    assert (X : forall l, filter g (map want l) = map want (filter (fun x => negb (named (df_name d) x)) l)).
    { induction l as [|[e o] l IH]; [reflexivity|]. cbn [map filter]. unfold g at 1. unfold want at 1. cbn [fst].
      unfold named at 1. cbn [fst]. unfold same_name. fold (low (df_name e)) (low (df_name d)).
      destruct (list_eq_dec Z.eq_dec (low (df_name e)) (low (df_name d))); cbn [negb map]; [exact IH|f_equal; exact IH]. }
    rewrite X. apply Permutation_refl. }
  destruct (position (t_fields t) (df_name d)) as [i|] eqn:Pos.
  - destruct (put_at_split _ i _ p Pos) as (l1 & k1 & v1 & l2 & E1 & E2 & E3 & E4 & E5).
    rewrite E2. rewrite E1 in P, ND, Q0. apply Forall_app in P. destruct P as [P1 P2]. apply Forall_cons_iff in P2. destruct P2 as [P2 P3].
    apply K.
    + apply Forall_app. split; [apply Fw, P1|]. constructor; [exact Hp|apply Fw, P3].
    + rewrite map_app. cbn [map]. rewrite !E0 by assumption.
      unfold entry at 2. cbn [fst snd]. unfold p at 1. rewrite unit_of_new, E4.
      rewrite map_app in Q0. cbn [map] in Q0. rewrite filter_app in Q0. cbn [filter] in Q0. unfold g at 2 in Q0.
      unfold entry at 2 in Q0. cbn [fst] in Q0.
      destruct (list_eq_dec Z.eq_dec (low k1) (low (df_name d))) as [_|N]; [|congruence].
      rewrite map_app in ND. cbn [map] in ND. rewrite map_app in ND. cbn [map] in ND. unfold entry at 2 in ND. cbn [fst] in ND. rewrite E4 in ND.
      rewrite (filter_all g (map (entry (t_units t)) l1)) in Q0.
      2:{ intros x Hx. apply in_map_iff in Hx. destruct Hx as (y & <- & Hy). unfold g, entry. cbn [fst].
          destruct (list_eq_dec Z.eq_dec _ _) as [e|]; [|reflexivity]. destruct (E5 y Hy e). }
      rewrite (filter_all g (map (entry (t_units t)) l2)) in Q0.
      2:{ intros x Hx. unfold g. destruct (list_eq_dec Z.eq_dec _ _) as [e|]; [|reflexivity]. exfalso.
          apply NoDup_remove_2 in ND. apply ND. apply in_or_app. right. rewrite <- e. apply in_map. exact Hx. }
      eapply Permutation_trans; [apply Permutation_sym, Permutation_middle|].
      eapply Permutation_trans; [apply perm_skip, Q0|]. apply Permutation_cons_append.
  - apply K.
    + apply Forall_app. split; [apply Fw, P|]. constructor; [exact Hp|constructor].
    + rewrite map_app. cbn [map]. rewrite E0 by exact P. unfold entry at 2. cbn [fst snd]. unfold p at 1. rewrite unit_of_new.
      apply Permutation_app_tail. rewrite <- Q0, filter_all; [apply Permutation_refl|].
      intros x Hx. apply in_map_iff in Hx. destruct Hx as (y & <- & Hy). unfold g, entry. cbn [fst].
      destruct (list_eq_dec Z.eq_dec _ _) as [e|]; [|reflexivity]. destruct (position_none _ _ Pos y Hy e).
Qed.

Lemma tinv0 : tinv [] table0.
Proof. constructor; cbn; constructor. Qed.
Lemma fold_tinv ds : forall pre t, tinv pre t -> total (pre ++ ds) <= 65536 -> tinv (pre ++ ds) (fold_left add_def ds t).
Proof.
  induction ds as [|d r IH]; intros pre t H T; cbn [fold_left].
  - rewrite app_nil_r. exact H.
  - replace (pre ++ d :: r) with ((pre ++ [d]) ++ r) in * by (rewrite <- app_assoc; reflexivity).
    apply IH; [|exact T]. apply tinv_add; [exact H|]. rewrite total_app in T. pose proof (total_pos r). lia.
Qed.

Lemma create_inv ds t : create ds = Some t -> total ds <= 65536 -> tinv ds t /\ 0 < t_size t.
Proof.
  intros C T. pose proof (fold_tinv ds [] table0 tinv0 T) as I. cbn [app] in I.
  unfold create in C. set (t0 := fold_left add_def ds table0) in *. clearbody t0.
  destruct (t_size t0 =? 0) eqn:E; [discriminate|]. injection C as <-. destruct I as [S P M].
  pose proof (total_pos ds).
  assert (Hs : to_u 32 (t_size t0) = total ds) by (rewrite to_u_small by (change (2 ^ 32) with 4294967296; lia); exact S).
  split; [constructor; cbn [t_size t_units t_fields]; assumption|]. cbn. lia.
Qed.
Lemma create_some ds : total ds <= 65536 -> (exists d, In d ds /\ good_def d = true) -> exists t, create ds = Some t.
Proof.
  intros T (d & Hd & G). pose proof (fold_tinv ds [] table0 tinv0 T) as I. cbn [app] in I.
  unfold create. destruct I as [S _ _]. rewrite S.
  assert (0 < total ds).
  { apply in_split in Hd. destruct Hd as (a & b & ->). rewrite total_app. cbn [total fold_right]. fold (total b).
    pose proof (total_pos a). pose proof (total_pos b). destruct (good_space d G) as (? & ? & ->). nia. }
  replace (total ds =? 0) with false by lia. eexists. reflexivity.
Qed.

(** * fields of a table and places of its definition *)
Definition shows (f : tfield) (x : fdef * Z) : Prop :=
  f_style f = df_style (fst x) /\ Z.of_nat (f_len f) = df_len (fst x) /\ Z.of_nat (f_count f) = df_count (fst x) /\
  Z.of_nat (f_off f) = snd x /\ f_idx f = df_idx (fst x) /\ f_only f = df_only (fst x).
Definition range (f : tfield) : nat * nat := (f_off f, f_len f * f_count f)%nat.

Lemma make_shows ds d o : In (d, o) (layout ds) -> total ds <= 65536 -> shows (make_unit d o) (d, o).
Proof.
  intros H T. destruct (places_in _ _ _ _ H) as (G & _ & A & B).
  destruct (make_unit_len d o G) as (L1 & L2). destruct (good_space d G) as (G1 & G2 & G3).
  unfold shows. cbn [fst snd]. repeat split; [exact L1|exact L2|].
  cbn. rewrite to_u_small by (change (2 ^ 16) with 65536; nia). lia.
Qed.

Lemma tinv_at ds t i k p : tinv ds t -> nth_error (t_fields t) i = Some (k, p) ->
  exists x, In x (layout ds) /\ low (df_name (fst x)) = low k /\ unit_of (t_units t) p = Some (make_unit (fst x) (snd x)).
Proof.
  intros [_ _ M] H. apply (map_nth_error (entry (t_units t))) in H. apply nth_error_In in H.
  apply (Permutation_in _ M) in H. apply in_map_iff in H. destruct H as (x & E & I).
  exists x. unfold want, entry in E. cbn [fst snd] in E. injection E as E1 E2. repeat split; [exact I|exact E1|symmetry; exact E2].
Qed.
Lemma tinv_place ds t x : tinv ds t -> In x (layout ds) ->
  exists i k p, nth_error (t_fields t) i = Some (k, p) /\ low k = low (df_name (fst x)) /\ unit_of (t_units t) p = Some (make_unit (fst x) (snd x)).
Proof.
  intros [_ _ M] H. apply (in_map want) in H. apply (Permutation_in _ (Permutation_sym M)) in H.
  apply in_map_iff in H. destruct H as ([k p] & E & I). apply In_nth_error in I. destruct I as (i & I).
  exists i, k, p. unfold want, entry in E. cbn [fst snd] in E. injection E as E1 E2. repeat split; assumption.
Qed.
Lemma tinv_names ds t : tinv ds t -> NoDup (map (fun e => low (fst e)) (t_fields t)).
Proof.
  intros [_ _ M]. apply (Permutation_NoDup (l := map fst (map want (layout ds)))).
  - replace (map (fun e => low (fst e)) (t_fields t)) with (map fst (map (entry (t_units t)) (t_fields t))).
    + apply Permutation_map, Permutation_sym, M.
    + rewrite map_map. reflexivity.
  - rewrite map_map. apply (places_nodup ds 0).
Qed.
Lemma nth_names {A B} (f : A -> B) l i j a b : NoDup (map f l) -> nth_error l i = Some a -> nth_error l j = Some b -> i <> j -> f a <> f b.
Proof.
  intros N Hi Hj D E. apply (map_nth_error f) in Hi, Hj. rewrite E in Hi. apply D.
  apply (NoDup_nth_error (map f l)); [exact N| |congruence].
  apply nth_error_Some. rewrite Hi. discriminate.
Qed.
Lemma layout_apart ds x y : In x (layout ds) -> In y (layout ds) -> low (df_name (fst x)) <> low (df_name (fst y)) ->
  snd x + space (fst x) <= snd y \/ snd y + space (fst y) <= snd x.
Proof.
  intros Hx Hy N. apply In_nth_error in Hx, Hy. destruct Hx as (i & Hi), Hy as (j & Hj).
  destruct x as [d o], y as [e q]. cbn [fst snd] in *.
  destruct (Nat.lt_trichotomy i j) as [L|[L|L]].
  - left. eapply places_apart; eassumption.
  - subst j. unfold layout in *. congruence.
  - right. eapply places_apart; eassumption.
Qed.

Lemma field_at_place ds t i f : tinv ds t -> total ds <= 65536 -> field_at t i = Some f ->
  exists x k p, In x (layout ds) /\ shows f x /\ nth_error (t_fields t) i = Some (k, p) /\ low (df_name (fst x)) = low k /\ f = make_unit (fst x) (snd x).
Proof.
  intros I T H. unfold field_at in H. destruct (nth_error (t_fields t) i) as [[k p]|] eqn:E; [|discriminate].
  destruct (tinv_at _ _ _ _ _ I E) as ([d o] & A & B & C). rewrite C in H. injection H as <-.
  exists (d, o), k, p. repeat split; try exact A; try exact B; apply (make_shows ds d o A T).
Qed.

Lemma shows_range ds f x : shows f x -> In x (layout ds) -> Z.of_nat (f_len f * f_count f) = space (fst x) /\ (0 < f_len f)%nat.
Proof.
  intros (_ & A & B & _) H. destruct x as [d o]. destruct (places_in _ _ _ _ H) as (G & _). cbn [fst snd] in *.
  destruct (good_space d G) as (? & ? & ->). nia.
Qed.

Lemma fields_apart ds t i j f g : tinv ds t -> total ds <= 65536 -> field_at t i = Some f -> field_at t j = Some g -> i <> j ->
  apart (range f) (range g).
Proof.
  intros I T Hf Hg N. destruct (field_at_place _ _ _ _ I T Hf) as (x & k & p & X1 & X2 & X3 & X4 & _).
  destruct (field_at_place _ _ _ _ I T Hg) as (y & k' & p' & Y1 & Y2 & Y3 & Y4 & _).
  pose proof (nth_names (fun e => low (fst e)) _ _ _ _ _ (tinv_names _ _ I) X3 Y3 N) as D. cbn [fst] in D.
  rewrite <- X4, <- Y4 in D. pose proof (layout_apart ds x y X1 Y1 D) as A.
  destruct (shows_range _ _ _ X2 X1) as (R & _). destruct (shows_range _ _ _ Y2 Y1) as (R' & _).
  destruct X2 as (_ & _ & _ & O & _). destruct Y2 as (_ & _ & _ & O' & _). unfold apart, range. cbn [fst snd]. lia.
Qed.
Lemma fields_inside ds t i f : tinv ds t -> total ds <= 65536 -> field_at t i = Some f ->
  (fst (range f) + snd (range f) <= Z.to_nat (t_size t))%nat.
Proof.
  intros I T Hf. destruct (field_at_place _ _ _ _ I T Hf) as ([d o] & k & p & X1 & X2 & X3 & X4 & _).
  destruct (shows_range _ _ _ X2 X1) as (R & _). destruct X2 as (_ & _ & _ & O & _). cbn [fst snd] in *.
  destruct (places_in _ _ _ _ X1) as (_ & _ & _ & B). destruct I as [S _ _]. unfold range. cbn [fst snd]. lia.
Qed.

(** * bytes of records *)
Lemma bytes_at_length l off n : (off + n <= length l)%nat -> length (bytes_at l off n) = n.
Proof. intros H. unfold bytes_at. rewrite firstn_length, skipn_length. lia. Qed.
Lemma nth_bytes_at l off n i : (i < n)%nat -> nth i (bytes_at l off n) 0 = nth (off + i) l 0.
Proof. apply nth_firstn_skipn. Qed.
Lemma list_nth_eq (a b : list Z) : length a = length b -> (forall i, (i < length a)%nat -> nth i a 0 = nth i b 0) -> a = b.
Proof. intros L H. apply (nth_ext a b 0 0 L). exact H. Qed.

Lemma splice_spec l off b : (off + length b <= length l)%nat ->
  exists l', splice l off b = Some l' /\ length l' = length l /\
    (forall i, (i < length b)%nat -> nth (off + i) l' 0 = nth i b 0) /\
    (forall i, (i < off \/ off + length b <= i)%nat -> nth i l' 0 = nth i l 0).
Proof.
  intros H. destruct (splice_some l off b H) as (l' & A & B & C). exists l'. split; [exact A|]. split; [exact B|]. split.
  - intros i Hi. rewrite C. replace (_ && _)%bool with true by lia. f_equal. lia.
  - intros i Hi. rewrite C. replace (_ && _)%bool with false by lia. reflexivity.
Qed.
Lemma bytes_ext a b off n : (off + n <= length a)%nat -> length a = length b ->
  (forall i, (off <= i < off + n)%nat -> nth i a 0 = nth i b 0) -> bytes_at a off n = bytes_at b off n.
Proof.
  intros H L E. apply list_nth_eq; [rewrite !bytes_at_length by lia; reflexivity|].
  intros i Hi. rewrite bytes_at_length in Hi by lia. rewrite !nth_bytes_at by lia. apply E. lia.
Qed.
Lemma bytes_is l off b : (off + length b <= length l)%nat -> (forall i, (i < length b)%nat -> nth (off + i) l 0 = nth i b 0) ->
  bytes_at l off (length b) = b.
Proof.
  intros H E. apply list_nth_eq; [apply bytes_at_length; lia|].
  intros i Hi. rewrite bytes_at_length in Hi by lia. rewrite nth_bytes_at by lia. apply E. exact Hi.
Qed.

Lemma int_len_pow n : int_len n = true -> 256 ^ Z.of_nat n = 2 ^ (8 * Z.of_nat n) /\ (n = 1 \/ n = 2 \/ n = 4 \/ n = 8)%nat.
Proof.
  intros H. unfold int_len in H.
  do 9 (destruct n as [|n]; [first [discriminate H | split; [reflexivity|lia]]|]). discriminate H.
Qed.
Lemma to_s_mod w v : 0 < w -> to_s w (v mod 2 ^ w) = to_s w v.
Proof. intros H. unfold to_s. rewrite Zmod_mod. reflexivity. Qed.

Lemma fset_spec f rec v i : int_len (flen f) = true -> (foff f + i * flen f + flen f <= length rec)%nat ->
  exists rec', fset f rec v i = Some rec' /\ length rec' = length rec /\
    bytes_at rec' (foff f + i * flen f) (flen f) = le_bytes (flen f) v /\
    (forall j, (j < foff f + i * flen f \/ foff f + i * flen f + flen f <= j)%nat -> nth j rec' 0 = nth j rec 0).
Proof.
  intros L H. unfold fset. rewrite L.
  destruct (splice_spec rec (foff f + i * flen f) (le_bytes (flen f) v)) as (l' & A & B & C & D); [rewrite le_bytes_length; lia|].
  rewrite le_bytes_length in C, D. exists l'. split; [exact A|]. split; [exact B|]. split; [|exact D].
  pose proof (bytes_is l' (foff f + i * flen f) (le_bytes (flen f) v)) as X. rewrite le_bytes_length in X. apply X; [lia|exact C].
Qed.
Lemma slice_bytes l off n : (off + n <= length l)%nat -> slice l off n = Some (bytes_at l off n).
Proof. intros H. unfold slice. replace (Nat.leb _ _) with true by (symmetry; apply Nat.leb_le; lia). reflexivity. Qed.
