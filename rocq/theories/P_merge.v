(** Properties of the merging of blocks: C70. *)
From Coq Require Import String.
From Verif Require Import Base M_memory L_memory S_server S_kdict S_index S_merge M_mapfile L_mapfile L_index M_sdb M_kdict L_kdict M_merge L_merge.
From Coq Require Import ZifyBool ZifyNat.
Open Scope list_scope.
Open Scope Z_scope.

(** A reader of a file without damage gets all records of a series in the order of its entries. *)
Theorem C70_read : forall stale tabs data x ks ts k s us recs, whole tabs data x ks ts -> series data x ks ts k s us recs ->
  read_series stale tabs (mkdf data (Some x)) k s = Some (List.concat recs).
Proof. exact series_read. Qed.

(** Merging a file without damage that has one block for each dictionary: it gives such a file again, with the same keys and
    tables and the same series; every series has one entry, which has the times of the last entry before; every reader gets what
    it got before.  What is missing: further blocks of a dictionary (C70_keys_refuted, C70_tables_refuted), damage
    (C70_first_refuted, C70_last_refuted, C70_index_refuted), and what is written later (C70_again_refuted, C70_old_refuted). *)
Theorem C70_merge_partial : forall stale tabs data x ks ts, whole tabs data x ks ts ->
  exists data' x', merge stale tabs (mkdf data (Some x)) = Some (mkdf data' (Some x')) /\ whole tabs data' x' ks ts /\
    map fst (x_nodes x') = map fst (x_nodes x) /\
    (forall k s us recs, series data x ks ts k s us recs ->
       exists u, series data' x' ks ts k s [u] [List.concat recs] /\ u_start u = u_start (last us u) /\ u_stop u = u_stop (last us u)) /\
    forall k s, read_series stale tabs (mkdf data' (Some x')) k s = read_series stale tabs (mkdf data (Some x)) k s.
Proof.
  intros stale tabs data x ks ts W. pose proof (whole_opens _ _ _ _ _ W) as OP. destruct (whole_dicts _ _ _ _ _ W) as (EN & ET).
  pose proof W as ((p & XK & BK) & (q & b & XT & BT & TB) & NE & PK & NK & NT & LK & LS & ND & WS).
  unfold merge. cbn [d_index d_data]. rewrite OP, EN, ET, XK, XT.
  assert (CB : exists c l, commas ks = c :: l).
  { rewrite commas_join. pose proof (join_nil ks NE PK). destruct (join ks); [congruence|eauto]. }
  assert (R1 : M_merge.read_unit stale data p = Some (DictKey, commas ks)).
  { unfold M_merge.read_unit. unfold block_at in BK. rewrite BK. cbn [b_body b_hid]. destruct CB as (c & l & ->). reflexivity. }
  assert (R2 : M_merge.read_unit stale data q = Some (DictSdb, b)).
  { unfold M_merge.read_unit. unfold block_at in BT. rewrite BT. cbn [b_body b_hid]. destruct b; reflexivity. }
  set (s1 := mkms [Some (mkmb DictKey (commas ks))] (mkix [O] [] []) (mem_clear (mem_cat mem_create (commas ks))) DictKey 0 0).
  destruct (live_cat mem_create (commas ks) mem_ok_create) as (O1 & L1). destruct (mem_clear_ok _ O1) as (O1c & L1c).
  assert (M1 : merge_node stale ks ts data None (dict_units [p]) (mkms [] no_index mem_create NoHid 0 0) = Some s1).
  { unfold merge_node, dict_units. cbn [map merge_units]. unfold merge_unit. cbn [u_place]. rewrite R1. cbn [o_data o_index o_mem u_start u_stop].
    cbv beta zeta. unfold put_block. cbn [o_mem o_data o_hid o_start o_stop]. rewrite L1. change (mem_live mem_create) with (@nil Z). cbn [app].
    rewrite (size_live _ O1c), L1c. reflexivity. }
  rewrite M1. destruct (live_cat (o_mem s1) b O1c) as (O2 & L2). cbn [s1 o_mem] in L2. rewrite L1c in L2. cbn [app] in L2. destruct (mem_clear_ok _ O2) as (O2c & L2c).
  set (s2 := mkms [Some (mkmb DictKey (commas ks)); Some (mkmb DictSdb b)] (mkix [O] [1%nat] []) (mem_clear (mem_cat (o_mem s1) b)) DictSdb 0 0).
  assert (M2 : merge_node stale ks ts data None (dict_units [q]) s1 = Some s2).
  { unfold merge_node, dict_units. cbn [map merge_units]. unfold merge_unit. cbn [u_place]. rewrite R2. cbn [s1 o_data o_index o_mem u_start u_stop].
    cbv beta zeta. unfold put_block. cbn [o_mem o_data o_hid o_start o_stop]. rewrite L2. cbn [s1 o_mem] in O2c, L2c.
    rewrite (size_live _ O2c), L2c. reflexivity. }
  rewrite M2.
  destruct (nodes_merged stale ks ts data LK LS NK NT (x_nodes x) s2) as (s3 & outs & more & A1 & A2 & A3 & A4 & A5 & A6);
    [exact (node_series _ _ _ _ _ W)|cbn [s2 o_index x_nodes app]; exact ND|exact O2c|exact L2c|].
  rewrite A1. exists (o_data s3), (o_index s3). split; [reflexivity|]. cbn [s2 o_index x_nodes x_keys x_tabs app o_data] in A2, A3, A4, A5.
  rewrite A5 in *.
  assert (NM : map fst outs = map fst (x_nodes x)).
  { clear -A6. induction A6 as [|a c l outs H F IH]; [reflexivity|]. cbn [map]. rewrite IH. f_equal. now destruct H. }
  assert (FW : forall a, In a (x_nodes x) -> exists c, In c outs /\ merged ks ts data (o_data s3) a c).
  { intros a I. revert I. clear -A6. induction A6 as [|a' c l outs H F IH]; intros I; [destruct I|]. destruct I as [->|I]; [exists c; split; [now left|exact H]|].
    destruct (IH I) as (c' & C1 & C2). exists c'. split; [now right|exact C2]. }
  assert (BW : forall c, In c outs -> exists a, In a (x_nodes x) /\ merged ks ts data (o_data s3) a c).
  { intros c I. revert I. clear -A6. induction A6 as [|a c' l outs H F IH]; intros I; [destruct I|]. destruct I as [->|I]; [exists a; split; [now left|exact H]|].
    destruct (IH I) as (a' & C1 & C2). exists a'. split; [now right|exact C2]. }
  assert (SE : forall k s us recs, series data x ks ts k s us recs ->
       exists u, series (o_data s3) (o_index s3) ks ts k s [u] [List.concat recs] /\ u_start u = u_start (last us u) /\ u_stop u = u_stop (last us u)).
  { intros k s us recs (kx & sx & nd & I & E1 & E2 & E3 & E4 & E5 & F). destruct (FW _ I) as ([n' d'] & C1 & C2 & C3 & C4 & kx' & sx' & u & recs' & D1 & D2 & D3 & D4 & D5 & D6 & D7).
    cbn [fst snd] in *. subst n'. exists u. rewrite E1 in D1. rewrite E2 in D2. rewrite E3 in D3, D6, D7.
    assert (kx' = kx) by (rewrite <- (index_nodup _ _ _ NK E4); symmetry; now apply index_nodup).
    assert (sx' = sx) by (rewrite <- (index_nodup _ _ _ NT E5); symmetry; now apply index_nodup). subst kx' sx'.
    assert (RR : recs' = recs).
    { clear -F D3 LK LS E4 E5. revert recs' D3. induction F as [|v r us recs H F IH]; intros recs' G; inversion G as [|? r' ? recs2 H2 G2]; subst; [reflexivity|].
      f_equal; [|now apply IH]. pose proof (nth_range _ _ _ _ E4). pose proof (nth_range _ _ _ _ E5).
      destruct (read_holds (fun _ => 0) data kx sx v r H ltac:(lia) ltac:(lia)) as (h & R & _).
      destruct (read_holds (fun _ => 0) data kx sx v r' H2 ltac:(lia) ltac:(lia)) as (h' & R' & _). congruence. }
    subst recs'. destruct (WS _ _ I) as (us' & recs' & _ & _ & EU & NU). rewrite E3 in EU. subst us'.
    split.
    - exists kx, sx, d'. rewrite A5. split; [exact C1|]. split; [now rewrite C3|]. split; [now rewrite C4|]. split; [exact D4|]. split; [exact E4|]. split; [exact E5|].
      constructor; [exact D5|constructor].
    - rewrite D6, D7. unfold last_unit. destruct us as [|v us] using rev_ind; [congruence|]. rewrite !last_last. auto. }
  assert (WH : whole tabs (o_data s3) (o_index s3) ks ts).
  { split. { exists O. split; [exact A3|]. rewrite A2. reflexivity. }
    split. { exists 1%nat, b. split; [exact A4|]. split; [rewrite A2; reflexivity|exact TB]. }
    repeat (split; [assumption|]). rewrite A5. split; [now rewrite NM|]. intros n d I. destruct (BW _ I) as ([n0 d0] & C1 & C2 & C3 & C4 & _).
    cbn [fst snd] in *. subst n. destruct (WS _ _ C1) as (us & recs & S0 & EN0 & EU & NU). destruct (SE _ _ _ _ S0) as (u & S1 & _).
    exists [u], [List.concat recs]. rewrite C3, C4. split; [exact S1|]. split; [exact EN0|]. split; [|discriminate].
    destruct S1 as (kx & sx & nd & J & _ & _ & J3 & _). rewrite A5 in J. rewrite <- J3. f_equal.
    assert (NO : NoDup (map fst outs)) by (rewrite NM; exact ND). rewrite EN0 in I.
    pose proof (nodup_mget _ _ _ _ NO I) as Q1. pose proof (nodup_mget _ _ _ _ NO J) as Q2. congruence. }
  split; [exact WH|]. split; [exact NM|]. split; [exact SE|].
  intros k s. destruct (mget (x_nodes x) (text_of k (Some s))) as [nd|] eqn:G.
  - pose proof (mget_in _ _ _ _ G) as I. destruct (WS _ _ I) as (us & recs & S0 & EN0 & EU & NU).
    pose proof (series_read stale tabs data x ks ts _ _ _ _ W S0) as Z1. destruct (SE _ _ _ _ S0) as (u & S1 & _).
    pose proof (series_read stale tabs _ _ ks ts _ _ _ _ WH S1) as Z2.
    unfold read_series in *. cbn [d_index d_data] in *. rewrite <- EN0 in Z1, Z2. rewrite Z1, Z2. cbn [List.concat]. now rewrite app_nil_r.
  - unfold read_series. cbn [d_index d_data]. rewrite OP, (whole_opens _ _ _ _ _ WH), G. rewrite A5.
    replace (mget outs (text_of k (Some s))) with (@None mnode); [reflexivity|]. symmetry. apply mget_new. rewrite NM. intros I.
    apply in_map_iff in I. destruct I as ([n d] & E & I). cbn [fst] in E. subst n. now apply (mget_none _ _ _ d) in G.
Qed.

(** A block that begins later than all entries of its series end: it does not matter whether it is written before or after
    merging.  What is missing: blocks of earlier times (C70_again_refuted, C70_old_refuted). *)
Theorem C70_later_partial : forall stale tabs data x ks ts k s us recs start stop new, whole tabs data x ks ts -> series data x ks ts k s us recs ->
  0 < start <= stop -> Forall (fun u => u_start u <= u_stop u < start) us ->
  exists f1 g g1, write_sdb tabs (mkdf data (Some x)) k s start stop new = Some f1 /\
    merge stale tabs (mkdf data (Some x)) = Some g /\ write_sdb tabs g k s start stop new = Some g1 /\
    read_series stale tabs f1 k s = Some (List.concat recs ++ new) /\ read_series stale tabs g1 k s = Some (List.concat recs ++ new).
Proof.
  intros stale tabs data x ks ts k s us recs start stop new W S0 R F.
  destruct (write_whole _ _ _ _ _ _ _ _ _ _ _ new W S0 R F) as (d1 & x1 & u1 & A1 & A2 & A3 & _).
  destruct (C70_merge_partial stale tabs data x ks ts W) as (d2 & x2 & B1 & B2 & _ & B4 & _). destruct (B4 _ _ _ _ S0) as (u & B5 & B6 & B7).
  assert (NU : us <> []).
  { destruct S0 as (kx & sx & nd & I & _ & _ & E3 & _). destruct W as (_ & _ & _ & _ & _ & _ & _ & _ & _ & WS). destruct (WS _ _ I) as (us' & _ & _ & _ & EU & N). congruence. }
  assert (F2 : Forall (fun u => u_start u <= u_stop u < start) [u]).
  { constructor; [|constructor]. rewrite B6, B7. rewrite Forall_forall in F. apply F. destruct us as [|v us] using rev_ind; [congruence|]. rewrite last_last. apply in_or_app. right. now left. }
  destruct (write_whole _ _ _ _ _ _ _ _ _ _ _ new B2 B5 R F2) as (d3 & x3 & u3 & C1 & C2 & C3 & _).
  exists (mkdf d1 (Some x1)), (mkdf d2 (Some x2)), (mkdf d3 (Some x3)). split; [exact A1|]. split; [exact B1|]. split; [exact C1|].
  rewrite (series_read stale _ _ _ _ _ _ _ _ _ A2 A3), (series_read stale _ _ _ _ _ _ _ _ _ C2 C3). rewrite !concat_app. cbn [List.concat app]. rewrite !app_nil_r. now split.
Qed.

(** ** what a block that is written replaces *)
Definition kept_units (start stop : Z) (us : list munit) : list munit :=
  if ((start =? 0) && (stop =? 0)) || (start >? stop) then [] else filter (fun u => negb (M_sdb.is_mixed start stop (u_start u) (u_stop u))) us.
Lemma write_kept : forall tabs data x ks ts k s us recs start stop new kr, whole tabs data x ks ts -> series data x ks ts k s us recs ->
  (forall kx sx, Forall2 (holds data kx sx) us recs -> Forall2 (holds data kx sx) (kept_units start stop us) kr) ->
  exists data' x' u, write_sdb tabs (mkdf data (Some x)) k s start stop new = Some (mkdf data' (Some x')) /\ whole tabs data' x' ks ts /\
    series data' x' ks ts k s (kept_units start stop us ++ [u]) (kr ++ [new]) /\
    forall k' s' us' recs', text_of k' (Some s') <> text_of k (Some s) -> series data x ks ts k' s' us' recs' -> series data' x' ks ts k' s' us' recs'.
Proof.
  intros tabs data x ks ts k s us recs start stop new kr W S0 KR. pose proof (whole_opens _ _ _ _ _ W) as OP. destruct (whole_dicts _ _ _ _ _ W) as (EN & ET).
  pose proof W as ((p & XK & BK) & (q & b & XT & BT & TB) & NE & PK & NK & NT & LK & LS & ND & WS).
  destruct S0 as (kx & sx & nd & I & E1 & E2 & E3 & E4 & E5 & FH). unfold write_sdb. cbn [d_index d_data].
  rewrite OP, EN, ET, (nth_known _ _ _ E4), (nth_known _ _ _ E5), (nodup_mget _ _ _ _ ND I), E3. cbn [andb].
  pose proof (KR _ _ FH) as FH'. fold (kept_units start stop us). set (ku := kept_units start stop us) in *.
  rewrite (index_nodup _ _ _ NK E4), (index_nodup _ _ _ NT E5).
  destruct (mem_cat_ssize_spec mem_create (Z.of_nat kx) mem_ok_create ltac:(lia)) as (O1 & L1).
  destruct (mem_cat_ssize_spec _ (Z.of_nat sx) O1 ltac:(lia)) as (O2 & L2). destruct (live_cat _ new O2) as (O3 & L3).
  rewrite L3, L2, L1. change (mem_live mem_create) with (@nil Z). cbn [app]. rewrite <- app_assoc.
  set (blk := mkmb MsgSdb (ssize_bytes (Z.of_nat kx) ++ ssize_bytes (Z.of_nat sx) ++ new)). set (u := mkmu start stop (length data)).
  set (x' := mkix (x_keys x) (x_tabs x) (mset (x_nodes x) (text_of k (Some s)) (mkmn k s (ku ++ [u])))).
  assert (MI := mset_in _ (x_nodes x) (text_of k (Some s)) (mkmn k s (ku ++ [u])) ND).
  assert (B1 : forall pp bb, block_at data pp bb -> block_at (data ++ [Some blk]) pp bb).
  { intros pp bb A. unfold block_at in *. rewrite nth_error_app1; [exact A|]. now apply nth_range in A. }
  assert (SN : series (data ++ [Some blk]) x' ks ts k s (ku ++ [u]) (kr ++ [new])).
  { exists kx, sx, (mkmn k s (ku ++ [u])). split; [apply MI; now left|]. split; [reflexivity|]. split; [reflexivity|]. split; [reflexivity|].
    split; [exact E4|]. split; [exact E5|]. apply Forall2_app.
    - clear -FH'. induction FH'; constructor; [now apply holds_more|assumption].
    - constructor; [|constructor]. exists blk. split; [|split; [now left|reflexivity]]. unfold block_at. cbn [u u_place].
      rewrite nth_error_app2, Nat.sub_diag by lia. reflexivity. }
  exists (data ++ [Some blk]), x', u. split; [reflexivity|]. split; [|split; [exact SN|]].
  2: { intros k' s' us' recs' NT' S1. apply (series_more _ _ x); [|exact S1]. intros n' d' I' K1 K2 K3. cbn [x' x_nodes]. apply MI. right. split; [|exact I']. now rewrite K3. }
  split; [exists p; split; [exact XK|now apply B1]|]. split; [exists q, b; split; [exact XT|split; [now apply B1|exact TB]]|].
  repeat (split; [assumption|]). split; [cbn [x' x_nodes]; rewrite (nodes_mset _ _ _ _ _ ND I); exact ND|].
  intros n d J. cbn [x' x_nodes] in J. apply MI in J. destruct J as [[-> ->]|[J1 J2]].
  - cbn [n_key n_tab n_units]. exists (ku ++ [u]), (kr ++ [new]). split; [exact SN|]. split; [reflexivity|]. split; [reflexivity|]. destruct ku; discriminate.
  - destruct (WS _ _ J2) as (us' & recs' & S1 & N1 & U1 & NE1). exists us', recs'. split; [|auto]. apply (series_more _ _ x); [|exact S1].
    intros n' d' I' K1 K2 K3. cbn [x' x_nodes]. apply MI. right. split; [|exact I']. rewrite K3, <- N1. exact J1.
Qed.

Lemma f2_filter {A B} (P : A -> B -> Prop) (f : A -> bool) : forall l m, Forall2 P l m ->
  Forall2 P (filter f l) (map snd (filter (fun p => f (fst p)) (combine l m))).
Proof. induction 1 as [|a b l m H F IH]; [constructor|]. cbn [combine filter fst]. destruct (f a); cbn [map snd]; [constructor; assumption|exact IH]. Qed.

(** A block of records from a time to a later one replaces exactly the entries whose times it overlaps or touches; the others
    are left in their order, it comes after them, and the other series are not changed.  What is missing: entries of one time
    only, and blocks of one time only (they do not replace what goes on around them, C62_again_refuted). *)
Theorem C70_write_partial : forall stale tabs data x ks ts k s us recs start stop new, whole tabs data x ks ts -> series data x ks ts k s us recs ->
  0 < start < stop -> Forall (fun u => u_start u < u_stop u) us ->
  exists f1, write_sdb tabs (mkdf data (Some x)) k s start stop new = Some f1 /\
    read_series stale tabs f1 k s = Some (List.concat (map snd (filter (fun p => (stop <? u_start (fst p)) || (u_stop (fst p) <? start)) (combine us recs))) ++ new) /\
    forall k' s' us' recs', text_of k' (Some s') <> text_of k (Some s) -> series data x ks ts k' s' us' recs' ->
      read_series stale tabs f1 k' s' = Some (List.concat recs').
Proof.
  intros stale tabs data x ks ts k s us recs start stop new W S0 R F.
  set (ap := fun u => (stop <? u_start u) || (u_stop u <? start)).
  assert (K : kept_units start stop us = filter ap us).
  { unfold kept_units. replace ((start =? 0) && (stop =? 0) || (start >? stop)) with false by lia. clear - R F. induction F as [|u us H F IH]; [reflexivity|].
    cbn [filter]. rewrite IH. replace (negb (M_sdb.is_mixed start stop (u_start u) (u_stop u))) with (ap u); [reflexivity|]. unfold ap, M_sdb.is_mixed.
    destruct ((start =? u_stop u) || (u_start u =? stop)) eqn:E1; [cbn [negb]; lia|].
    destruct ((start >? u_stop u) || (u_start u >? stop)) eqn:E2; cbn [negb]; lia. }
  destruct (write_kept tabs data x ks ts k s us recs start stop new (map snd (filter (fun p => ap (fst p)) (combine us recs))) W S0) as (d1 & x1 & u & A & B & C & D).
  { intros kx sx H. rewrite K. apply f2_filter. exact H. }
  exists (mkdf d1 (Some x1)). split; [exact A|]. split.
  - rewrite (series_read stale _ _ _ _ _ _ _ _ _ B C), concat_app. cbn [List.concat]. rewrite app_nil_r. reflexivity.
  - intros k' s' us' recs' N S1. exact (series_read stale _ _ _ _ _ _ _ _ _ B (D _ _ _ _ N S1)).
Qed.
Print Assumptions C70_write_partial.

(** Records without times replace all that the series held. *)
Theorem C70_write_all : forall stale tabs data x ks ts k s us recs start stop new, whole tabs data x ks ts -> series data x ks ts k s us recs ->
  (start = 0 /\ stop = 0) \/ stop < start ->
  exists f1, write_sdb tabs (mkdf data (Some x)) k s start stop new = Some f1 /\ read_series stale tabs f1 k s = Some new /\
    forall k' s' us' recs', text_of k' (Some s') <> text_of k (Some s) -> series data x ks ts k' s' us' recs' ->
      read_series stale tabs f1 k' s' = Some (List.concat recs').
Proof.
  intros stale tabs data x ks ts k s us recs start stop new W S0 R.
  assert (K : kept_units start stop us = []) by (unfold kept_units; replace ((start =? 0) && (stop =? 0) || (start >? stop)) with true by lia; reflexivity).
  destruct (write_kept tabs data x ks ts k s us recs start stop new [] W S0) as (d1 & x1 & u & A & B & C & D).
  { intros kx sx H. rewrite K. constructor. }
  exists (mkdf d1 (Some x1)). split; [exact A|]. split.
  - rewrite (series_read stale _ _ _ _ _ _ _ _ _ B C). cbn [List.concat app]. rewrite app_nil_r. reflexivity.
  - intros k' s' us' recs' N S1. exact (series_read stale _ _ _ _ _ _ _ _ _ B (D _ _ _ _ N S1)).
Qed.
Print Assumptions C70_write_all.

(** A node of the index without entries is no obstacle: the series are read as before, whether its table is known or not. *)
Theorem C70_no_entries : forall stale tabs data x ks ts k s us recs n k' s', whole tabs data x ks ts -> series data x ks ts k s us recs ->
  In k' ks -> ~ In n (map fst (x_nodes x)) ->
  read_series stale tabs (mkdf data (Some (mkix (x_keys x) (x_tabs x) (x_nodes x ++ [(n, mkmn k' s' [])])))) k s = Some (List.concat recs).
Proof.
  intros stale tabs data x ks ts k s us recs n k' s' W S0 I N. pose proof (series_read stale _ _ _ _ _ _ _ _ _ W S0) as E. unfold read_series in *. cbn [d_index d_data] in *.
  set (x' := mkix (x_keys x) (x_tabs x) (x_nodes x ++ [(n, mkmn k' s' [])])).
  assert (O : opens tabs data x' = true).
  { pose proof (whole_opens _ _ _ _ _ W) as O. destruct (whole_dicts _ _ _ _ _ W) as (NK & NT). unfold opens in *. cbn [x' x_nodes].
    change (names_of data x') with (names_of data x). change (tables_of tabs data x') with (tables_of tabs data x).
    rewrite forallb_app, O. cbn [forallb snd n_key n_tab n_units andb]. rewrite NK, (proj2 (known_ok ks k') I), orb_true_r. reflexivity. }
  rewrite O. rewrite (whole_opens _ _ _ _ _ W) in E. destruct S0 as (kx & sx & nd & J & _). destruct W as (_ & _ & _ & _ & _ & _ & _ & _ & ND & _).
  rewrite (nodup_mget _ _ _ _ ND J) in E. cbn [x' x_nodes]. rewrite (nodup_mget _ _ _ nd); [exact E| |apply in_or_app; left; exact J].
  rewrite map_app. cbn [map fst]. clear - ND N. induction (map fst (x_nodes x)) as [|a l IH]; [constructor; [intros []|constructor]|].
  inversion ND as [|? ? A B]; subst. cbn [app]. constructor; [|apply IH; [exact B|intros K; apply N; now right]].
  intros K. apply in_app_or in K. destruct K as [K|[K|[]]]; [exact (A K)|]. apply N. left. symmetry. exact K.
Qed.
Print Assumptions C70_no_entries.

(** * a file with a key A, a table T and two blocks of times 10 to 19 and 20 to 29 *)
Definition tab_names (b : list Z) : list (list Z) := [b].
Definition fA : list Z := bs "A"%string.
Definition fB : list Z := bs "B"%string.
Definition fT : list Z := bs "T"%string.
Definition fU : list Z := bs "U"%string.
Definition two_data : list (option mblk) :=
  [Some (mkmb DictKey fA); Some (mkmb DictSdb fT); Some (mkmb MsgSdb [0; 0; 101; 102]); Some (mkmb MsgSdb [0; 0; 103])].
Definition two_index : index := mkix [0%nat] [1%nat] [(bs "A.T"%string, mkmn fA fT [mkmu 10 19 2; mkmu 20 29 3])].
Definition got (o : option dfile) : dfile := match o with Some f => f | None => mkdf [] None end.
Definition two : dfile := mkdf two_data (Some two_index).
Definition stale0 : nat -> Z := fun _ => 0.
Lemma read_closed : forall stale tabs f, match d_index f with Some x => opens tabs (d_data f) x | None => true end = false ->
  forall k s, read_series stale tabs f k s = None.
Proof. intros stale tabs f H k s. unfold read_series. destruct (d_index f); [|discriminate]. now rewrite H. Qed.
Lemma two_holds : Forall2 (holds two_data 0 0) [mkmu 10 19 2; mkmu 20 29 3] [[101; 102]; [103]].
Proof.
  constructor; [|constructor; [|constructor]]; eexists; (split; [reflexivity|]; split; [left; reflexivity|reflexivity]).
Qed.
Lemma two_series : series two_data two_index [fA] [fT] fA fT [mkmu 10 19 2; mkmu 20 29 3] [[101; 102]; [103]].
Proof.
  exists O, O, (mkmn fA fT [mkmu 10 19 2; mkmu 20 29 3]). split; [now left|]. repeat (split; [reflexivity|]). exact two_holds.
Qed.
Lemma two_whole : whole tab_names two_data two_index [fA] [fT].
Proof.
  split; [exists O; now split|]. split; [exists 1%nat, fT; repeat (split; [reflexivity|]); reflexivity|]. split; [discriminate|].
  split. { constructor; [|constructor]. split; [discriminate|]. split; [intros [H|[]]; discriminate|]. split; [intros [H|[]]; discriminate|]. cbn. lia. }
  split; [constructor; [intros []|constructor]|]. split; [constructor; [intros []|constructor]|].
  split; [cbn; lia|]. split; [cbn; lia|]. split; [constructor; [intros []|constructor]|].
  intros n nd [H|[]]. injection H as <- <-. exists [mkmu 10 19 2; mkmu 20 29 3], [[101; 102]; [103]]. split; [exact two_series|]. split; [reflexivity|]. split; [reflexivity|discriminate].
Qed.
Example C70_ex_read : read_series (fun _ => 7) tab_names (mkdf two_data (Some two_index)) fA fT = Some [101; 102; 103] /\
  whole tab_names two_data two_index [fA] [fT].
Proof. split; [vm_compute; reflexivity|exact two_whole]. Qed.
Example C70_ex_merge : merge (fun _ => 7) tab_names (mkdf two_data (Some two_index)) =
  Some (mkdf [Some (mkmb DictKey fA); Some (mkmb DictSdb fT); Some (mkmb MsgSdb [0; 0; 101; 102; 103])]
             (Some (mkix [0%nat] [1%nat] [(bs "A.T"%string, mkmn fA fT [mkmu 20 29 2])]))).
Proof. vm_compute. reflexivity. Qed.
Example C70_ex_later : exists f1, write_sdb tab_names (mkdf two_data (Some two_index)) fA fT 30 39 [104] = Some f1 /\
  read_series (fun _ => 7) tab_names f1 fA fT = Some [101; 102; 103; 104].
Proof. exists (got (write_sdb tab_names two fA fT 30 39 [104])). split; vm_compute; reflexivity. Qed.

Example C70_ex_write : exists f1 f2, write_sdb tab_names (mkdf two_data (Some two_index)) fA fT 5 15 [104] = Some f1 /\
  read_series (fun _ => 7) tab_names f1 fA fT = Some [103; 104] /\
  write_sdb tab_names (mkdf two_data (Some two_index)) fA fT 0 0 [104] = Some f2 /\ read_series (fun _ => 7) tab_names f2 fA fT = Some [104] /\
  Forall (fun u => u_start u < u_stop u) [mkmu 10 19 2; mkmu 20 29 3].
Proof.
  exists (got (write_sdb tab_names two fA fT 5 15 [104])), (got (write_sdb tab_names two fA fT 0 0 [104])).
  split; [vm_compute; reflexivity|]. split; [vm_compute; reflexivity|]. split; [vm_compute; reflexivity|]. split; [vm_compute; reflexivity|].
  apply Forall_cons; [cbn; lia|apply Forall_cons; [cbn; lia|apply Forall_nil]].
Qed.

Example C70_ex_no_entries : In fA [fA] /\ ~ In (bs "A.U"%string) (map fst (x_nodes two_index)) /\
  read_series (fun _ => 7) tab_names (mkdf two_data (Some (mkix [0%nat] [1%nat] (x_nodes two_index ++ [(bs "A.U"%string, mkmn fA fU [])])))) fA fT = Some [101; 102; 103].
Proof. split; [now left|]. split; [intros [K|[]]; discriminate|vm_compute; reflexivity]. Qed.

(** Records are written again for the times of the last block.  Without merging, they replace that block; after merging, they
    replace everything: the records of all earlier times are lost. *)
Theorem C70_again_refuted : exists tabs data x ks ts k s start stop new f1 g g1,
  whole tabs data x ks ts /\ write_sdb tabs (mkdf data (Some x)) k s start stop new = Some f1 /\
  merge (fun _ => 0) tabs (mkdf data (Some x)) = Some g /\ write_sdb tabs g k s start stop new = Some g1 /\
  read_series (fun _ => 0) tabs f1 k s = Some [101; 102; 203] /\ read_series (fun _ => 0) tabs g1 k s = Some [203].
Proof.
  exists tab_names, two_data, two_index, [fA], [fT], fA, fT, 20, 29, [203],
    (got (write_sdb tab_names two fA fT 20 29 [203])), (got (M_merge.merge stale0 tab_names two)), (got (write_sdb tab_names (got (M_merge.merge stale0 tab_names two)) fA fT 20 29 [203])).
  split; [exact two_whole|]. split; [vm_compute; reflexivity|]. split; [vm_compute; reflexivity|]. split; [vm_compute; reflexivity|].
  split; vm_compute; reflexivity.
Qed.
(** Records are written again for the times of an earlier block.  Without merging, they replace it; after merging, the old ones
    stay and the new ones are added. *)
Theorem C70_old_refuted : exists tabs data x ks ts k s start stop new f1 g g1,
  whole tabs data x ks ts /\ write_sdb tabs (mkdf data (Some x)) k s start stop new = Some f1 /\
  merge (fun _ => 0) tabs (mkdf data (Some x)) = Some g /\ write_sdb tabs g k s start stop new = Some g1 /\
  read_series (fun _ => 0) tabs f1 k s = Some [103; 201] /\ read_series (fun _ => 0) tabs g1 k s = Some [101; 102; 103; 201].
Proof.
  exists tab_names, two_data, two_index, [fA], [fT], fA, fT, 10, 19, [201],
    (got (write_sdb tab_names two fA fT 10 19 [201])), (got (M_merge.merge stale0 tab_names two)), (got (write_sdb tab_names (got (M_merge.merge stale0 tab_names two)) fA fT 10 19 [201])).
  split; [exact two_whole|]. split; [vm_compute; reflexivity|]. split; [vm_compute; reflexivity|]. split; [vm_compute; reflexivity|].
  split; vm_compute; reflexivity.
Qed.
(** Keys in two blocks, as after a new key: the merged file keeps only the last of them in its index; reading it, as any start of
    reading or writing does, uses a null pointer. *)
Theorem C70_keys_refuted : exists tabs f g k s, read_series (fun _ => 0) tabs f k s = Some [101; 102] /\
  merge (fun _ => 0) tabs f = Some g /\ forall k' s', read_series (fun _ => 0) tabs g k' s' = None.
Proof.
  set (f := mkdf [Some (mkmb DictKey fA); Some (mkmb DictSdb fT); Some (mkmb MsgSdb [0; 0; 101; 102]); Some (mkmb DictKey fB); Some (mkmb MsgSdb [1; 0; 103])]
    (Some (mkix [0%nat; 3%nat] [1%nat] [(bs "A.T"%string, mkmn fA fT [mkmu 10 19 2]); (bs "B.T"%string, mkmn fB fT [mkmu 20 29 4])]))).
  exists tab_names, f, (got (M_merge.merge stale0 tab_names f)), fA, fT. split; [vm_compute; reflexivity|]. split; [vm_compute; reflexivity|]. apply read_closed. vm_compute. reflexivity.
Qed.
(** The same with tables. *)
Theorem C70_tables_refuted : exists tabs f g k s, read_series (fun _ => 0) tabs f k s = Some [101; 102] /\
  merge (fun _ => 0) tabs f = Some g /\ forall k' s', read_series (fun _ => 0) tabs g k' s' = None.
Proof.
  set (f := mkdf [Some (mkmb DictKey fA); Some (mkmb DictSdb fT); Some (mkmb MsgSdb [0; 0; 101; 102]); Some (mkmb DictSdb fU); Some (mkmb MsgSdb [0; 1; 103])]
    (Some (mkix [0%nat] [1%nat; 3%nat] [(bs "A.T"%string, mkmn fA fT [mkmu 10 19 2]); (bs "A.U"%string, mkmn fA fU [mkmu 20 29 4])]))).
  exists tab_names, f, (got (M_merge.merge stale0 tab_names f)), fA, fT. split; [vm_compute; reflexivity|]. split; [vm_compute; reflexivity|]. apply read_closed. vm_compute. reflexivity.
Qed.
(** The first block of a series cannot be read.  Before merging, a reader gets the others; after it, the numbers in front are
    missing and the first bytes of the records are taken for them. *)
Theorem C70_first_refuted : exists tabs f g k s, read_series (fun _ => 0) tabs f k s = Some [103; 104; 105; 106] /\
  merge (fun _ => 0) tabs f = Some g /\ read_series (fun _ => 0) tabs g k s = Some [105; 106].
Proof.
  set (f := mkdf [Some (mkmb DictKey fA); Some (mkmb DictSdb fT); None; Some (mkmb MsgSdb [0; 0; 103; 104; 105; 106])] (Some two_index)).
  exists tab_names, f, (got (M_merge.merge stale0 tab_names f)), fA, fT. split; [vm_compute; reflexivity|]. split; vm_compute; reflexivity.
Qed.
(** The last block cannot be read: the merged block has no kind, and a reader gets the numbers as records. *)
Theorem C70_last_refuted : exists tabs f g k s, read_series (fun _ => 0) tabs f k s = Some [101; 102] /\
  merge (fun _ => 0) tabs f = Some g /\ read_series (fun _ => 0) tabs g k s = Some [0; 0; 101; 102].
Proof.
  set (f := mkdf [Some (mkmb DictKey fA); Some (mkmb DictSdb fT); Some (mkmb MsgSdb [0; 0; 101; 102]); None] (Some two_index)).
  exists tab_names, f, (got (M_merge.merge stale0 tab_names f)), fA, fT. split; [vm_compute; reflexivity|]. split; vm_compute; reflexivity.
Qed.
(** The index cannot be read, as when the program stopped before writing it: merging deletes all data, whatever it was. *)
Theorem C70_index_refuted : exists data, block_at data 2 (mkmb MsgSdb [0; 0; 101; 102]) /\
  forall stale tabs, exists g, merge stale tabs (mkdf data None) = Some g /\ d_data g = [].
Proof. exists two_data. split; [reflexivity|]. intros stale tabs. eexists. split; reflexivity. Qed.

Print Assumptions C70_read.
Print Assumptions C70_merge_partial.
Print Assumptions C70_later_partial.
Print Assumptions C70_again_refuted.
Print Assumptions C70_old_refuted.
Print Assumptions C70_keys_refuted.
Print Assumptions C70_tables_refuted.
Print Assumptions C70_first_refuted.
Print Assumptions C70_last_refuted.
Print Assumptions C70_index_refuted.
