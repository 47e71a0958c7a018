(** Lemmas for the merging of blocks. *)
From Verif Require Import Base M_memory L_memory S_kdict S_index S_merge M_mapfile L_mapfile L_index M_sdb M_kdict L_kdict M_merge.
From Coq Require Import ZifyBool ZifyNat.

Lemma num_ssize : forall v, num v = ssize_bytes v.
Proof. reflexivity. Qed.
Lemma num_cons : forall v, exists c l, num v = c :: l.
Proof. intros v. rewrite num_ssize. pose proof (ssize_cons v). destruct (ssize_bytes v) as [|c l]; [congruence|eauto]. Qed.
Lemma commas_join : forall l, commas l = join l.
Proof. induction l as [|k l IH]; [reflexivity|]. destruct l; [reflexivity|]. cbn [commas join] in *. now rewrite IH. Qed.
Lemma index_nodup : forall l k i, NoDup l -> nth_error l i = Some k -> index_of l k = i.
Proof.
  induction l as [|x l IH]; intros k i N E; [destruct i; discriminate|]. inversion N as [|? ? N1 N2]; subst.
  cbn [index_of]. destruct i as [|i]; cbn [nth_error] in E.
  - injection E as ->. destruct (list_eq_dec Z.eq_dec k k); congruence.
  - destruct (list_eq_dec Z.eq_dec x k) as [->|NE]; [exfalso; apply N1; eapply nth_error_In; eassumption|]. f_equal. now apply IH.
Qed.
Lemma nth_range : forall (A : Type) (l : list A) i x, nth_error l i = Some x -> (i < length l)%nat.
Proof. intros A l i x E. apply nth_error_Some. congruence. Qed.
Lemma nth_known : forall l i k, nth_error l i = Some k -> M_kdict.known l k = true.
Proof. intros l i k E. apply known_ok. eapply nth_error_In; eassumption. Qed.

Lemma live_cat : forall m b, mem_ok m -> mem_ok (mem_cat m b) /\ mem_live (mem_cat m b) = mem_live m ++ b.
Proof. intros m b O. apply (mem_cat_spec m b O). Qed.

Lemma read_holds : forall stale data kx sx u r, holds data kx sx u r -> Z.of_nat kx < 2 ^ 64 -> Z.of_nat sx < 2 ^ 64 ->
  exists h, read_unit stale data (u_place u) = Some (h, r) /\ (h = MsgSdb \/ h = MsgNon).
Proof.
  intros stale data kx sx u r (b & A & H & E) LK LS. exists (b_hid b). split; [|exact H]. unfold read_unit. unfold block_at in A. rewrite A.
  destruct (num_cons (Z.of_nat kx)) as (c & l & N).
  destruct (live_cat mem_create (b_body b) mem_ok_create) as (O & L). change (mem_live mem_create) with (@nil Z) in L. cbn [app] in L. rewrite E, num_ssize in L.
  destruct (mem_get_ssize_spec stale (mem_cat mem_create (b_body b)) (Z.of_nat kx) (num (Z.of_nat sx) ++ r) O ltac:(lia)) as (m1 & G1 & O1 & L1 & _).
  { rewrite E, num_ssize. exact L. }
  rewrite num_ssize in L1.
  destruct (mem_get_ssize_spec stale m1 (Z.of_nat sx) r O1 ltac:(lia) L1) as (m2 & G2 & O2 & L2 & _).
  rewrite G1, G2, L2. destruct (b_body b) as [|c' l']; [rewrite N in E; discriminate|]. destruct H as [->| ->]; reflexivity.
Qed.

Definition last_unit (us : list munit) : munit := last us (mkmu 0 0 0).
Lemma units_more : forall stale ks ts data kx sx nd, Z.of_nat kx < 2 ^ 64 -> Z.of_nat sx < 2 ^ 64 ->
  forall us recs, Forall2 (holds data kx sx) us recs ->
  forall st u0, mem_ok (o_mem st) -> (o_hid st = MsgSdb \/ o_hid st = MsgNon) -> o_start st = u_start u0 -> o_stop st = u_stop u0 ->
  exists st', merge_units stale ks ts data nd false us st = Some st' /\ o_data st' = o_data st /\ o_index st' = o_index st /\ mem_ok (o_mem st') /\
    mem_live (o_mem st') = mem_live (o_mem st) ++ concat recs /\ (o_hid st' = MsgSdb \/ o_hid st' = MsgNon) /\
    o_start st' = u_start (last us u0) /\ o_stop st' = u_stop (last us u0).
Proof.
  intros stale ks ts data kx sx nd LK LS us recs F. induction F as [|u r us recs H F IH]; intros st u0 O HH S1 S2.
  - exists st. cbn. rewrite app_nil_r. auto 10.
  - cbn [merge_units]. unfold merge_unit. destruct (read_holds stale data kx sx u r H LK LS) as (h & E & HH'). rewrite E.
    destruct (live_cat (o_mem st) r O) as (O1 & L1).
    set (st1 := mkms (o_data st) (o_index st) (mem_cat (o_mem st) r) h (u_start u) (u_stop u)).
    assert (E1 : match h with
      | DictKey => Some (put_block st1 (mkix [length (o_data st)] (x_tabs (o_index st)) (x_nodes (o_index st))))
      | DictSdb => Some (put_block st1 (mkix (x_keys (o_index st)) [length (o_data st)] (x_nodes (o_index st))))
      | MsgSdb | MsgNon => Some st1
      | NoHid => Some (mkms (o_data st) (o_index st) (o_mem st) h (u_start u) (u_stop u))
      end = Some st1) by (destruct HH' as [->| ->]; reflexivity).
    cbv beta zeta. cbv beta zeta in E1. rewrite E1.
    destruct (IH st1 u O1 HH' eq_refl eq_refl) as (st' & A1 & A2 & A3 & A4 & A5 & A6 & A7 & A8).
    exists st'. split; [exact A1|]. split; [exact A2|]. split; [exact A3|]. split; [exact A4|]. split.
    { rewrite A5. cbn [st1 o_mem concat]. rewrite L1, <- app_assoc. reflexivity. }
    split; [exact A6|]. assert (LL : last (u :: us) u0 = last us u) by (clear; destruct us as [|v us]; [reflexivity|]; cbn [last]; revert v; induction us; intros; [reflexivity|]; cbn [last] in *; apply IHus).
    rewrite LL. auto.
Qed.

Lemma node_merged : forall stale ks ts data d kx sx us recs st, Z.of_nat kx < 2 ^ 64 -> Z.of_nat sx < 2 ^ 64 -> NoDup ks -> NoDup ts ->
  nth_error ks kx = Some (n_key d) -> nth_error ts sx = Some (n_tab d) -> Forall2 (holds data kx sx) us recs -> us <> [] ->
  mem_ok (o_mem st) -> mem_live (o_mem st) = [] ->
  exists st' h, merge_node stale ks ts data (Some d) us st = Some st' /\ (h = MsgSdb \/ h = MsgNon) /\
    o_data st' = o_data st ++ [Some (mkmb h (num (Z.of_nat kx) ++ num (Z.of_nat sx) ++ concat recs))] /\
    o_index st' = add_unit (o_index st) d (mkmu (u_start (last_unit us)) (u_stop (last_unit us)) (length (o_data st))) /\
    mem_ok (o_mem st') /\ mem_live (o_mem st') = [].
Proof.
  intros stale ks ts data d kx sx us recs st LK LS NK NT EK ET F NE O L.
  destruct F as [|u r us recs H F]; [congruence|]. unfold merge_node. cbn [merge_units]. unfold merge_unit.
  destruct (read_holds stale data kx sx u r H LK LS) as (h & E & HH'). rewrite E.
  rewrite (nth_known _ _ _ EK), (nth_known _ _ _ ET), (index_nodup _ _ _ NK EK), (index_nodup _ _ _ NT ET). cbn [andb]. cbv beta zeta.
  destruct (mem_cat_ssize_spec (o_mem st) (Z.of_nat kx) O ltac:(lia)) as (O1 & L1).
  destruct (mem_cat_ssize_spec _ (Z.of_nat sx) O1 ltac:(lia)) as (O2 & L2).
  destruct (live_cat _ r O2) as (O3 & L3).
  set (m3 := mem_cat (mem_cat_ssize (mem_cat_ssize (o_mem st) (Z.of_nat kx)) (Z.of_nat sx)) r) in *.
  set (st1 := mkms (o_data st) (o_index st) m3 h (u_start u) (u_stop u)).
  match goal with |- context [match ?X with Some _ => merge_units _ _ _ _ _ _ _ _ | None => None end] =>
    replace X with (Some st1) by (destruct HH' as [->| ->]; reflexivity) end.
  destruct (units_more stale ks ts data kx sx (Some d) LK LS us recs F st1 u O3 HH' eq_refl eq_refl) as (st2 & A1 & A2 & A3 & A4 & A5 & A6 & A7 & A8).
  rewrite A1. assert (LL : last_unit (u :: us) = last us u).
  { unfold last_unit. clear. destruct us as [|v us]; [reflexivity|]. cbn [last]. revert v. induction us; intros; [reflexivity|]. cbn [last] in *. apply IHus. }
  assert (LV : mem_live (o_mem st2) = num (Z.of_nat kx) ++ num (Z.of_nat sx) ++ concat (r :: recs)).
  { rewrite A5. cbn [st1 o_mem concat]. rewrite L3, L2, L1, L. cbn [app]. rewrite <- !app_assoc. reflexivity. }
  assert (SZ : (0 <? Z.of_nat (mem_get_size (o_mem st2))) = true).
  { rewrite (size_live _ A4), LV. destruct (num_cons (Z.of_nat kx)) as (c & l & ->). cbn [app length]. lia. }
  rewrite SZ. eexists. exists (o_hid st2). split; [reflexivity|]. split; [exact A6|]. unfold put_block. cbn [o_data o_index o_mem].
  split; [rewrite A2, LV; reflexivity|]. split; [rewrite A2, A3, A7, A8, LL; reflexivity|].
  destruct (mem_clear_ok _ A4) as (C1 & C2). now split.
Qed.

(** the merged entry of a node *)
Definition merged (ks ts : list (list Z)) (data data' : list (option mblk)) (a b : list Z * mnode) : Prop :=
  fst b = fst a /\ n_key (snd b) = n_key (snd a) /\ n_tab (snd b) = n_tab (snd a) /\
  exists kx sx u recs, nth_error ks kx = Some (n_key (snd a)) /\ nth_error ts sx = Some (n_tab (snd a)) /\
    Forall2 (holds data kx sx) (n_units (snd a)) recs /\ n_units (snd b) = [u] /\ holds data' kx sx u (concat recs) /\
    u_start u = u_start (last_unit (n_units (snd a))) /\ u_stop u = u_stop (last_unit (n_units (snd a))).
Lemma holds_more : forall data x kx sx u r, holds data kx sx u r -> holds (data ++ x) kx sx u r.
Proof.
  intros data x kx sx u r (b & A & R). exists b. split; [|exact R]. unfold block_at in *. rewrite nth_error_app1; [exact A|].
  now apply nth_range in A.
Qed.
Lemma merged_more : forall ks ts data data' x a b, merged ks ts data data' a b -> merged ks ts data (data' ++ x) a b.
Proof.
  intros ks ts data data' x a b (A1 & A2 & A3 & kx & sx & u & recs & B1 & B2 & B3 & B4 & B5 & B6 & B7).
  split; [exact A1|]. split; [exact A2|]. split; [exact A3|]. exists kx, sx, u, recs. repeat (split; [assumption|]).
  split; [now apply holds_more|]. now split.
Qed.
Lemma mset_new : forall A (m : named A) n d, ~ In n (map fst m) -> mset m n d = m ++ [(n, d)].
Proof.
  induction m as [|[x e] m IH]; intros n d N; [reflexivity|]. cbn [mset map fst In] in *.
  destruct (list_eq_dec Z.eq_dec x n) as [->|_]; [tauto|]. cbn [app]. f_equal. apply IH. tauto.
Qed.
Lemma mget_new : forall A (m : named A) n, ~ In n (map fst m) -> mget m n = None.
Proof.
  induction m as [|[x e] m IH]; intros n N; [reflexivity|]. cbn [mget map fst In] in *.
  destruct (list_eq_dec Z.eq_dec x n) as [->|_]; [tauto|]. apply IH. tauto.
Qed.

Lemma nodes_merged : forall stale ks ts data, Z.of_nat (length ks) < 2 ^ 64 -> Z.of_nat (length ts) < 2 ^ 64 -> NoDup ks -> NoDup ts ->
  forall l st, (forall n nd, In (n, nd) l -> exists kx sx recs, nth_error ks kx = Some (n_key nd) /\ nth_error ts sx = Some (n_tab nd) /\
                  Forall2 (holds data kx sx) (n_units nd) recs /\ n = text_of (n_key nd) (Some (n_tab nd)) /\ n_units nd <> []) ->
  NoDup (map fst (x_nodes (o_index st) ++ l)) -> mem_ok (o_mem st) -> mem_live (o_mem st) = [] ->
  exists st' outs more, merge_nodes stale ks ts data l st = Some st' /\ o_data st' = o_data st ++ more /\
    x_keys (o_index st') = x_keys (o_index st) /\ x_tabs (o_index st') = x_tabs (o_index st) /\
    x_nodes (o_index st') = x_nodes (o_index st) ++ outs /\ Forall2 (merged ks ts data (o_data st')) l outs.
Proof.
  intros stale ks ts data LK LS NK NT. induction l as [|[n d] l IH]; intros st G ND O L.
  - exists st, [], []. rewrite !app_nil_r. cbn. auto 10.
  - destruct (G n d) as (kx & sx & recs & EK & ET & F & EN & NE); [now left|].
    pose proof (nth_range _ _ _ _ EK). pose proof (nth_range _ _ _ _ ET).
    destruct (node_merged stale ks ts data d kx sx (n_units d) recs st ltac:(lia) ltac:(lia) NK NT EK ET F NE O L) as (st1 & h & A1 & A2 & A3 & A4 & A5 & A6).
    cbn [merge_nodes]. rewrite A1.
    set (u := mkmu (u_start (last_unit (n_units d))) (u_stop (last_unit (n_units d))) (length (o_data st))) in *.
    assert (NI : ~ In n (map fst (x_nodes (o_index st)))).
    { rewrite map_app in ND. cbn [map fst] in ND. apply NoDup_remove_2 in ND. intros I. apply ND. apply in_or_app. now left. }
    assert (X : x_nodes (o_index st1) = x_nodes (o_index st) ++ [(n, mkmn (n_key d) (n_tab d) [u])]).
    { rewrite A4. unfold add_unit. cbn [x_nodes]. rewrite <- EN. rewrite (mget_new _ _ _ NI). now apply mset_new. }
    destruct (IH st1) as (st' & outs & more & B1 & B2 & B3 & B4 & B5 & B6); auto.
    { intros n' nd' I. apply G. now right. }
    { rewrite X, <- app_assoc. cbn [app]. rewrite map_app in ND |- *. cbn [map fst] in *. exact ND. }
    exists st', ((n, mkmn (n_key d) (n_tab d) [u]) :: outs), (Some (mkmb h (num (Z.of_nat kx) ++ num (Z.of_nat sx) ++ concat recs)) :: more).
    split; [exact B1|]. split; [rewrite B2, A3, <- app_assoc; reflexivity|].
    split; [rewrite B3, A4; reflexivity|]. split; [rewrite B4, A4; reflexivity|]. split; [rewrite B5, X, <- app_assoc; reflexivity|].
    constructor; [|exact B6]. rewrite B2. apply merged_more.
    split; [reflexivity|]. split; [reflexivity|]. split; [reflexivity|]. exists kx, sx, u, recs. cbn [snd n_units n_key n_tab].
    split; [exact EK|]. split; [exact ET|]. split; [exact F|]. split; [reflexivity|]. split; [|now split].
    rewrite A3. eexists. split; [|split; [|]]; cycle 2.
    + instantiate (1 := mkmb h (num (Z.of_nat kx) ++ num (Z.of_nat sx) ++ concat recs)). reflexivity.
    + unfold block_at. cbn [u u_place]. rewrite nth_error_app2, Nat.sub_diag by lia. reflexivity.
    + exact A2.
Qed.

Lemma whole_dicts : forall tabs data x ks ts, whole tabs data x ks ts -> names_of data x = ks /\ tables_of tabs data x = ts.
Proof.
  intros tabs data x ks ts ((p & XK & BK) & (q & b & XT & BT & TB) & NE & PK & NK & NT & _).
  unfold names_of, tables_of, dict_blocks. rewrite XK, XT. cbn [flat_map]. unfold block_at in *. rewrite BK, BT. cbn [app b_body]. split.
  - unfold read_names. cbn [fold_left]. rewrite commas_join. pose proof (join_nil ks NE PK).
    destruct (join ks) as [|c l] eqn:EJ; [congruence|]. rewrite <- EJ, (load_join ks PK). now rewrite add_names_new.
  - unfold read_tables. cbn [fold_left]. rewrite TB. now rewrite add_names_new.
Qed.
Lemma node_series : forall tabs data x ks ts, whole tabs data x ks ts -> forall n nd, In (n, nd) (x_nodes x) ->
  exists kx sx recs, nth_error ks kx = Some (n_key nd) /\ nth_error ts sx = Some (n_tab nd) /\
    Forall2 (holds data kx sx) (n_units nd) recs /\ n = text_of (n_key nd) (Some (n_tab nd)) /\ n_units nd <> [].
Proof.
  intros tabs data x ks ts (_ & _ & _ & _ & _ & _ & _ & _ & ND & W) n nd I.
  destruct (W n nd I) as (us & recs & (kx & sx & nd' & I' & E1 & E2 & E3 & E4 & E5 & F) & EN & EU & NE).
  exists kx, sx, recs. subst us. split; [exact E4|]. split; [exact E5|]. split; [rewrite EU; exact F|]. split; [exact EN|rewrite EU; exact NE].
Qed.
Lemma whole_opens : forall tabs data x ks ts, whole tabs data x ks ts -> opens tabs data x = true.
Proof.
  intros tabs data x ks ts W. destruct (whole_dicts _ _ _ _ _ W) as (NK & NT). unfold opens. apply forallb_forall. intros [n nd] I. cbn [snd].
  destruct (node_series _ _ _ _ _ W n nd I) as (kx & sx & recs & EK & ET & _). rewrite NK, NT, (nth_known _ _ _ EK), (nth_known _ _ _ ET). reflexivity.
Qed.
Lemma nodup_mget : forall A (m : named A) n d, NoDup (map fst m) -> In (n, d) m -> mget m n = Some d.
Proof.
  induction m as [|[x e] m IH]; intros n d N I; [destruct I|]. cbn [map fst] in N. inversion N as [|? ? N1 N2]; subst. cbn [mget].
  destruct I as [I|I].
  - injection I as -> ->. destruct (list_eq_dec Z.eq_dec n n); congruence.
  - destruct (list_eq_dec Z.eq_dec x n) as [->|_]; [|now apply IH]. exfalso. apply N1. apply in_map_iff. now exists (n, d).
Qed.
Lemma units_read : forall stale data kx sx us recs, Forall2 (holds data kx sx) us recs -> Z.of_nat kx < 2 ^ 64 -> Z.of_nat sx < 2 ^ 64 ->
  read_units stale data us = Some (concat recs).
Proof.
  intros stale data kx sx us recs F LK LS. induction F as [|u r us recs H F IH]; [reflexivity|]. cbn [read_units].
  destruct (read_holds stale data kx sx u r H LK LS) as (h & E & _). now rewrite E, IH.
Qed.
Lemma series_read : forall stale tabs data x ks ts k s us recs, whole tabs data x ks ts -> series data x ks ts k s us recs ->
  read_series stale tabs (mkdf data (Some x)) k s = Some (concat recs).
Proof.
  intros stale tabs data x ks ts k s us recs W (kx & sx & nd & I & E1 & E2 & E3 & E4 & E5 & F). unfold read_series. cbn [d_index d_data].
  rewrite (whole_opens _ _ _ _ _ W). destruct W as (_ & _ & _ & _ & _ & _ & LK & LS & ND & _). rewrite (nodup_mget _ _ _ _ ND I), E3.
  pose proof (nth_range _ _ _ _ E4). pose proof (nth_range _ _ _ _ E5). apply (units_read stale data kx sx us recs F); lia.
Qed.

Lemma nodes_mset : forall A (m : named A) n d e, NoDup (map fst m) -> In (n, e) m -> map fst (mset m n d) = map fst m.
Proof.
  intros A m n d e N I. rewrite mset_names. destruct (in_dec (list_eq_dec Z.eq_dec) n (map fst m)) as [_|C]; [reflexivity|].
  exfalso. apply C. apply in_map_iff. now exists (n, e).
Qed.
Lemma kept_all : forall start stop us, 0 < start <= stop -> Forall (fun u => u_start u <= u_stop u < start) us ->
  filter (fun u => negb (is_mixed start stop (u_start u) (u_stop u))) us = us.
Proof.
  intros start stop us R F. induction F as [|u us H F IH]; [reflexivity|]. cbn [filter]. replace (is_mixed start stop (u_start u) (u_stop u)) with false.
  - cbn [negb]. now rewrite IH.
  - unfold is_mixed. replace ((start =? u_stop u) || (u_start u =? stop)) with false by lia. replace ((start >? u_stop u) || (u_start u >? stop)) with true by lia. reflexivity.
Qed.
Lemma series_more : forall data b x x' ks ts k s us recs, (forall n d, In (n, d) (x_nodes x) -> n_key d = k -> n_tab d = s -> n = text_of k (Some s) -> In (n, d) (x_nodes x')) ->
  series data x ks ts k s us recs -> series (data ++ b) x' ks ts k s us recs.
Proof.
  intros data b x x' ks ts k s us recs H (kx & sx & nd & I & E1 & E2 & E3 & E4 & E5 & F). exists kx, sx, nd. split; [now apply H|].
  repeat (split; [assumption|]). clear -F. induction F; constructor; [now apply holds_more|assumption].
Qed.
Lemma write_whole : forall tabs data x ks ts k s us recs start stop new, whole tabs data x ks ts -> series data x ks ts k s us recs ->
  0 < start <= stop -> Forall (fun u => u_start u <= u_stop u < start) us ->
  exists data' x' u, write_sdb tabs (mkdf data (Some x)) k s start stop new = Some (mkdf data' (Some x')) /\ whole tabs data' x' ks ts /\
    series data' x' ks ts k s (us ++ [u]) (recs ++ [new]) /\ u_start u = start /\ u_stop u = stop.
Proof.
  intros tabs data x ks ts k s us recs start stop new W S0 R F. pose proof (whole_opens _ _ _ _ _ W) as OP. destruct (whole_dicts _ _ _ _ _ W) as (EN & ET).
  pose proof W as ((p & XK & BK) & (q & b & XT & BT & TB) & NE & PK & NK & NT & LK & LS & ND & WS).
  destruct S0 as (kx & sx & nd & I & E1 & E2 & E3 & E4 & E5 & FH). unfold write_sdb. cbn [d_index d_data].
  rewrite OP, EN, ET, (nth_known _ _ _ E4), (nth_known _ _ _ E5), (nodup_mget _ _ _ _ ND I), E3. cbn [andb].
  replace ((start =? 0) && (stop =? 0) || (start >? stop)) with false by lia. rewrite (kept_all _ _ _ R F).
  rewrite (index_nodup _ _ _ NK E4), (index_nodup _ _ _ NT E5).
  destruct (mem_cat_ssize_spec mem_create (Z.of_nat kx) mem_ok_create ltac:(lia)) as (O1 & L1).
  destruct (mem_cat_ssize_spec _ (Z.of_nat sx) O1 ltac:(lia)) as (O2 & L2). destruct (live_cat _ new O2) as (O3 & L3).
  rewrite L3, L2, L1. change (mem_live mem_create) with (@nil Z). cbn [app]. rewrite <- app_assoc.
  set (blk := mkmb MsgSdb (ssize_bytes (Z.of_nat kx) ++ ssize_bytes (Z.of_nat sx) ++ new)). set (u := mkmu start stop (length data)).
  set (x' := mkix (x_keys x) (x_tabs x) (mset (x_nodes x) (text_of k (Some s)) (mkmn k s (us ++ [u])))).
  assert (MI := mset_in _ (x_nodes x) (text_of k (Some s)) (mkmn k s (us ++ [u])) ND).
  assert (B1 : forall pp bb, block_at data pp bb -> block_at (data ++ [Some blk]) pp bb).
  { intros pp bb A. unfold block_at in *. rewrite nth_error_app1; [exact A|]. now apply nth_range in A. }
  assert (SN : series (data ++ [Some blk]) x' ks ts k s (us ++ [u]) (recs ++ [new])).
  { exists kx, sx, (mkmn k s (us ++ [u])). split; [apply MI; now left|]. split; [reflexivity|]. split; [reflexivity|]. split; [reflexivity|].
    split; [exact E4|]. split; [exact E5|]. apply Forall2_app.
    - clear -FH. induction FH; constructor; [now apply holds_more|assumption].
    - constructor; [|constructor]. exists blk. split; [|split; [now left|reflexivity]]. unfold block_at. cbn [u u_place].
      rewrite nth_error_app2, Nat.sub_diag by lia. reflexivity. }
  exists (data ++ [Some blk]), x', u. split; [reflexivity|]. split; [|split; [exact SN|now split]].
  split; [exists p; split; [exact XK|now apply B1]|]. split; [exists q, b; split; [exact XT|split; [now apply B1|exact TB]]|].
  repeat (split; [assumption|]). split; [cbn [x' x_nodes]; rewrite (nodes_mset _ _ _ _ _ ND I); exact ND|].
  intros n d J. cbn [x' x_nodes] in J. apply MI in J. destruct J as [[-> ->]|[J1 J2]].
  - cbn [n_key n_tab n_units]. exists (us ++ [u]), (recs ++ [new]). split; [exact SN|]. split; [reflexivity|]. split; [reflexivity|]. destruct us; discriminate.
  - destruct (WS _ _ J2) as (us' & recs' & S1 & N1 & U1 & NE1). exists us', recs'. split; [|auto]. apply (series_more _ _ x); [|exact S1].
    intros n' d' I' K1 K2 K3. cbn [x' x_nodes]. apply MI. right. split; [|exact I']. rewrite K3, <- N1. exact J1.
Qed.
