(** Lemmas for records as JSON texts. *)
From Coq Require Import String.
From Verif Require Import Base S_server S_map S_table M_dynamic M_table S_json M_json M_netmsg S_tabdef M_tabdef S_rectext M_rectext.
From Verif Require Import L_map L_incrzip L_table L_json L_jsonwrite L_netmsg P_json L_nettext L_tabdef.
From Coq Require Import ZifyBool ZifyNat.
Open Scope list_scope. Open Scope Z_scope.

(** ** the fields of a table in a row *)
Fixpoint seqp (off : Z) (ds : list fdef) : list (fdef * Z) :=
  match ds with [] => [] | d :: r => (d, off) :: seqp (off + space d) r end.
Definition unit_at (x : fdef * Z) : tfield := make_unit (fst x) (snd x).
Lemma places_seq ds : forall off, Forall (fun d => good_def d = true) ds -> distinct_names ds -> places off ds = seqp off ds.
Proof.
  induction ds as [|d r IH]; intros off G D; [reflexivity|]. inversion G as [|? ? Gd Gr]; subst. destruct D as [D1 D2].
  cbn [places seqp]. rewrite Gd. cbn [andb].
  replace (existsb _ r) with false.
  - cbn [negb app]. f_equal. apply IH; assumption.
  - symmetry. apply not_true_iff_false. intros X. apply existsb_exists in X as (e & I & X). apply andb_true_iff in X as [X1 X2].
    rewrite (D1 Gd e I X1) in X2. discriminate.
Qed.
Lemma places_filter ds : forall off, places off (filter good_def ds) = places off ds.
Proof.
  induction ds as [|d r IH]; intros off; [reflexivity|]. cbn [filter places]. destruct (good_def d) eqn:G.
  - cbn [places andb]. rewrite G, IH. cbn [andb]. f_equal. f_equal.
    assert (E : existsb (fun e => good_def e && same_name (df_name d) (df_name e)) (filter good_def r) = existsb (fun e => good_def e && same_name (df_name d) (df_name e)) r).
    { clear. induction r as [|e r IH]; [reflexivity|]. cbn [filter existsb]. destruct (good_def e) eqn:G; cbn [existsb]; rewrite ?G, IH; reflexivity. }
    rewrite E. reflexivity.
  - cbn [andb app]. unfold space. rewrite G, IH, Z.add_0_r. reflexivity.
Qed.
Lemma total_filter ds : total (filter good_def ds) = total ds.
Proof.
  induction ds as [|d r IH]; [reflexivity|]. cbn [filter]. change (total (d :: r)) with (space d + total r).
  destruct (good_def d) eqn:G.
  - change (total (d :: filter good_def r)) with (space d + total (filter good_def r)). lia.
  - unfold space. rewrite G. lia.
Qed.
Lemma seqp_snoc ds : forall off d, seqp off (ds ++ [d]) = seqp off ds ++ [(d, off + total ds)].
Proof.
  induction ds as [|e r IH]; intros off d; cbn [app seqp].
  - cbn [total fold_right]. rewrite Z.add_0_r. reflexivity.
  - rewrite IH. change (total (e :: r)) with (space e + total r). do 4 f_equal. lia.
Qed.
Lemma seqp_length ds : forall off, List.length (seqp off ds) = List.length ds.
Proof. induction ds as [|d r IH]; intros off; cbn; [reflexivity|]. rewrite IH. reflexivity. Qed.
Lemma build_units ds : Forall (fun d => good_def d = true) ds -> total ds < 65536 ->
  t_units (build ds) = map unit_at (seqp 0 ds) /\ t_size (build ds) = total ds.
Proof.
  induction ds as [|d ds IH] using rev_ind; intros G T; [split; reflexivity|].
  apply Forall_app in G as [G1 G2]. inversion G2 as [|? ? Gd _]; subst. rewrite total_app in T.
  pose proof (total_pos ds). pose proof (space_pos d). pose proof (good_space d Gd) as (S1 & S2 & S3).
  change (total [d]) with (space d + 0) in T.
  destruct (IH G1 ltac:(lia)) as (A & B). rewrite build_snoc, units_good by exact Gd. rewrite seqp_snoc, map_app, <- A, B. split; [reflexivity|].
  rewrite add_def_good by exact Gd. unfold add_good. destruct (mspec _ _) as [[fs x] fr]. cbn [t_size].
  destruct (make_unit_len d (t_size (build ds)) Gd) as (L1 & L2). rewrite L1, L2, B, total_app. change (total [d]) with (space d + 0).
  rewrite <- S3. rewrite !to_s_small; try lia; change (2 ^ (32 - 1)) with 2147483648; rewrite ?to_s_small; lia.
Qed.
(** what a table is *)
Record made (gs : list fdef) (t : table) : Prop := {
  md_good : Forall (fun d => good_def d = true /\ simple_def d) gs;
  md_total : total gs < 65536;
  md_size : t_size t = total gs;
  md_units : fields_of t = map unit_at (seqp 0 gs);
  md_count : List.length (t_fields t) = List.length gs;
  md_some : gs <> [] }.
Lemma table_made ds t : simple_table ds -> create ds = Some t ->
  made (filter good_def ds) t /\ layout ds = seqp 0 (filter good_def ds) /\ total ds = total (filter good_def ds).
Proof.
  intros (D & T & S) C. set (gs := filter good_def ds).
  assert (G1 : Forall (fun d => good_def d = true) gs).
  { apply Forall_forall. intros d I. apply filter_In in I. tauto. }
  assert (G2 : Forall (fun d => good_def d = true /\ simple_def d) gs).
  { apply Forall_forall. intros d I. apply filter_In in I. rewrite Forall_forall in S. split; [tauto|]. apply S; tauto. }
  pose proof (total_filter ds) as TF. fold gs in TF.
  pose proof (build_good ds) as BG. fold gs in BG.
  destruct (build_fields gs G1 (distinct_filter ds D)) as (A1 & A2). destruct (build_units gs G1 ltac:(lia)) as (B1 & B2).
  unfold create in C. fold (build ds) in C. rewrite <- BG in C.
  destruct (t_size (build gs) =? 0) eqn:Z0; [discriminate|].
  assert (EU : t_units t = t_units (build gs) /\ t_fields t = t_fields (build gs) /\ t_size t = to_u 32 (t_size (build gs))) by (injection C as <-; repeat split; reflexivity).
  destruct EU as (EU & EF & ES).
  split; [|split; [|lia]].
  2:{ unfold layout. rewrite <- (places_filter ds). apply places_seq; [exact G1|]. apply distinct_filter. exact D. }
  pose proof (total_pos gs).
  constructor.
  - exact G2.
  - lia.
  - rewrite ES, B2. apply to_u_small. change (2 ^ 32) with 4294967296. lia.
  - unfold fields_of. rewrite fields_from_units; [rewrite skipn_O, EU; exact B1| |].
    + intros j J. rewrite EF, A1, numbered_length in J. unfold field_at. rewrite EF, A1. destruct (numbered_nth gs 1 j ltac:(lia)) as [k ->]. unfold unit_of.
      replace (1 + Z.of_nat j <=? 0) with false by lia. f_equal. lia.
    + rewrite EU, A2, EF, A1, numbered_length. reflexivity.
  - rewrite EF, A1, numbered_length. reflexivity.
  - intros X. rewrite X in Z0. discriminate.
Qed.

(** ** pieces of memory *)
Lemma splice_mid (A X P B : list Z) : List.length X = List.length B -> splice (A ++ X ++ P) (List.length A) B = Some (A ++ B ++ P).
Proof.
  intros L. unfold splice. rewrite !app_length. replace (Nat.leb _ _) with true by (symmetry; apply Nat.leb_le; lia). f_equal.
  rewrite firstn_app, Nat.sub_diag, firstn_O, app_nil_r, firstn_all. f_equal. f_equal.
  rewrite app_assoc, skipn_app. rewrite skipn_all2 by (rewrite app_length; lia). cbn [app].
  rewrite app_length, <- L, Nat.sub_diag. reflexivity.
Qed.
Lemma slice_mid (A B P : list Z) n : List.length B = n -> slice (A ++ B ++ P) (List.length A) n = Some B.
Proof.
  intros <-. unfold slice. rewrite !app_length. replace (Nat.leb _ _) with true by (symmetry; apply Nat.leb_le; lia). f_equal.
  rewrite skipn_app, skipn_all, Nat.sub_diag. cbn [app skipn]. rewrite firstn_app, Nat.sub_diag, firstn_O, app_nil_r. apply firstn_all.
Qed.
Lemma filled_split n s : filled n s = firstn (Nat.min n (List.length s)) s ++ repeat 0 (n - Nat.min n (List.length s)).
Proof.
  unfold filled. destruct (Nat.le_gt_cases n (List.length s)).
  - rewrite Nat.min_l by lia. rewrite Nat.sub_diag. cbn [repeat]. rewrite app_nil_r. rewrite firstn_app.
    replace (n - List.length s)%nat with 0%nat by lia. rewrite firstn_O. apply app_nil_r.
  - rewrite Nat.min_r by lia. rewrite firstn_app, firstn_all, firstn_all2 by lia. f_equal.
    replace (repeat 0 n) with (repeat 0 (n - List.length s) ++ repeat 0 (List.length s)) by (rewrite <- repeat_app; f_equal; lia).
    rewrite firstn_app, repeat_length, Nat.sub_diag, firstn_O, app_nil_r. apply firstn_all2. rewrite repeat_length. lia.
Qed.
Lemma filled_length n s : List.length (filled n s) = n.
Proof. rewrite filled_split, app_length, firstn_length, repeat_length. lia. Qed.

(** ** numbers *)
Lemma digits_val s : Forall digit s -> forall a, atoll_digits s a = fold_left (fun a c => a * 10 + (c - 48)) s a.
Proof.
  induction 1 as [|c s H _ IH]; intros a; [reflexivity|]. cbn [atoll_digits fold_left]. unfold digit in H.
  replace ((48 <=? c) && (c <=? 57)) with true by lia. apply IH.
Qed.
Lemma atoll_spells z s : spells z s -> - 2 ^ 63 <= z < 2 ^ 63 -> atoll s = z.
Proof.
  change (2 ^ 63) with 9223372036854775808. intros H R.
  assert (C : forall v, - 9223372036854775808 <= v < 9223372036854775808 -> clamp64 v = v).
  { intros v V. unfold clamp64. change (2 ^ 63) with 9223372036854775808. lia. }
  destruct H as [(N & (D & F) & V & _)|(N & s' & -> & (D & F) & V & _)].
  - pose proof (digits_val s F 0) as E. rewrite V in E. destruct s as [|c s]; [congruence|].
    inversion F as [|? ? Dc _]; subst. unfold digit in Dc.
    assert (G : atoll (c :: s) = clamp64 (atoll_digits (c :: s) 0)).
    { unfold atoll. destruct c as [|c|c]; try lia. repeat (destruct c as [c|c|]; try reflexivity; try lia). }
    rewrite G, E. apply C. lia.
  - change (atoll (45 :: s')) with (clamp64 (- atoll_digits s' 0)). rewrite (digits_val s' F), V, C; lia.
Qed.
Lemma lldtoa_spells v : - 2 ^ 63 < v < 2 ^ 63 -> spells v (lldtoa v).
Proof.
  intros H. unfold lldtoa, spells. destruct (Z.ltb_spec v 0).
  - right. split; [lia|]. eexists. split; [reflexivity|]. apply lld_dec. lia.
  - left. split; [lia|]. apply lld_dec. lia.
Qed.
Lemma spells_num z s : spells z s -> numlex false s.
Proof.
  intros [(_ & D)|(_ & s' & -> & D)]; [exact (dec_num _ _ D)|]. apply neg_num; [exact (dec_num _ _ D)|exact (dec_hd _ _ D)].
Qed.
Lemma pow_width n : 0 <= n -> 2 ^ (8 * n) = 256 ^ n.
Proof. intros H. rewrite Z.pow_mul_r by lia. reflexivity. Qed.
Lemma le_bytes_mod n : forall z, le_bytes n (z mod 256 ^ Z.of_nat n) = le_bytes n z.
Proof.
  intros z. pose proof (le_bytes_val (le_bytes n z) (le_bytes_byte n z)) as E. rewrite le_bytes_length, le_val_bytes in E. exact E.
Qed.
Lemma bytes_of b z n : Forall is_byte b -> List.length b = n -> le_val b = z mod 256 ^ Z.of_nat n -> le_bytes n z = b.
Proof. intros B L V. rewrite <- le_bytes_mod, <- V, <- L. apply le_bytes_val. exact B. Qed.

(** ** finding values *)
Lemma digit_lower s : Forall digit s -> map M_json.lower s = s.
Proof.
  induction 1 as [|c s H _ IH]; [reflexivity|]. cbn [map]. rewrite IH. f_equal. unfold M_json.lower, digit in *.
  replace ((65 <=? c) && (c <=? 90)) with false by lia. reflexivity.
Qed.
Lemma dec_case i j s t : is_dec i s -> is_dec j t -> case_eq s t = (i =? j).
Proof.
  intros A B. unfold case_eq. pose proof A as ((_ & FA) & VA & _). pose proof B as ((_ & FB) & VB & _).
  rewrite !digit_lower by assumption. destruct (list_eq_dec Z.eq_dec s t) as [->|N].
  - symmetry. apply Z.eqb_eq. congruence.
  - symmetry. apply Z.eqb_neq. intros ->. apply N. exact (is_dec_unique _ _ _ A B).
Qed.
Lemma arr_find l : forall i ks key j, arr_shape i l ks -> is_dec (i + Z.of_nat j) key ->
  match nth_error l j with Some e => exists c k, find_key ks key = Some c /\ shaped e k c | None => True end.
Proof.
  induction l as [|v l IH]; intros i [|c ks] key j H D; try contradiction; [destruct j; exact Logic.I|].
  cbn [arr_shape] in H. destruct H as [(s & Ds & Sh) H].
  assert (K : jkey c = Some s) by (destruct v; apply Sh).
  destruct j as [|j]; cbn [nth_error find_key]; rewrite K.
  - exists c, (Some s). rewrite (dec_case _ _ _ _ Ds D). replace (i =? i + Z.of_nat 0) with true by lia. split; [reflexivity|exact Sh].
  - rewrite (dec_case _ _ _ _ Ds D). replace (i =? i + Z.of_nat (S j)) with false by lia.
    apply (IH (i + 1) ks key j H). replace (i + 1 + Z.of_nat j) with (i + Z.of_nat (S j)) by lia. exact D.
Qed.
Lemma to_point_none p : ~ In 46 p -> to_point p = None.
Proof.
  induction p as [|c p IH]; intros H; [reflexivity|]. cbn [to_point]. destruct (Z.eqb_spec c 46); [elim H; left; congruence|].
  rewrite IH; [reflexivity|]. intros X. apply H. right. exact X.
Qed.
Lemma find_nopoint n p : ~ In 46 p -> find_node n p = find_key (jkids n) p.
Proof. intros H. unfold find_node. destruct (List.length p); [reflexivity|]. cbn [find_path]. rewrite to_point_none by exact H. reflexivity. Qed.
Lemma dec_nopoint i s : is_dec i s -> ~ In 46 s.
Proof. intros ((_ & F) & _) X. rewrite Forall_forall in F. specialize (F _ X). unfold digit in F. lia. Qed.
Lemma arr_length l : forall i ks, arr_shape i l ks -> List.length ks = List.length l.
Proof. induction l as [|v l IH]; intros i [|c ks] H; try contradiction; [reflexivity|]. cbn in *. f_equal. apply (IH (i + 1)). tauto. Qed.

(** ** setting one field *)
Lemma shaped_str s k c : shaped (JStr s) k c -> jval c = Some s.
Proof. intros H. apply H. Qed.
Lemma shaped_num s k c : shaped (JNum s) k c -> jval c = Some s.
Proof. intros H. apply H. Qed.
Lemma unit_len d off : good_def d = true -> f_len (unit_at (d, off)) = Z.to_nat (df_len d) /\ f_count (unit_at (d, off)) = Z.to_nat (df_count d).
Proof. intros G. destruct (make_unit_len d off G) as (A & B). unfold unit_at. cbn [fst snd]. lia. Qed.
Lemma unit_off d off : 0 <= off < 65536 -> f_off (unit_at (d, off)) = Z.to_nat off.
Proof. intros H. cbn. rewrite to_u_small; [reflexivity|]. change (2 ^ 16) with 65536. exact H. Qed.
Lemma int_len_whole d : whole_len (df_len d) = true -> int_len (Z.to_nat (df_len d)) = true.
Proof.
  unfold whole_len. intros H. assert (E : df_len d = 1 \/ df_len d = 2 \/ df_len d = 4 \/ df_len d = 8) by lia.
  destruct E as [->|[->|[->| ->]]]; reflexivity.
Qed.
Lemma kind_put k : whole_kind k = true -> (k =? K_CHAR) = false /\ uint_kind k || (k =? K_INT) = true.
Proof.
  unfold whole_kind, uint_kind. intros H. split; [|exact H].
  unfold time_kind, K_TSEC, K_MSEC, K_MINU, K_DATE, K_UINT, K_INT, K_CHAR in *. lia.
Qed.
Lemma put_cell base d off key n c e k b A P :
  good_def d = true -> simple_def d -> 0 <= off < 65536 -> List.length A = (base + Z.to_nat off)%nat ->
  find_node n key = Some c -> shaped e k c -> cell d b e -> Forall is_byte b -> List.length b = Z.to_nat (df_len d) ->
  put_elem base (unit_at (d, off)) 0 key n (A ++ repeat 0 (Z.to_nat (df_len d)) ++ P) = Some (A ++ b ++ P).
Proof.
  intros G (_ & SD) HO LA F SH C B LB. destruct (unit_len d off G) as (UL & _). pose proof (unit_off d off HO) as UO.
  unfold put_elem, at_base. cbn [foff flen]. rewrite UL, UO. change (f_style (unit_at (d, off))) with (df_style d).
  replace (base + Z.to_nat off + 0 * Z.to_nat (df_len d))%nat with (List.length A) by lia.
  rewrite F. unfold cell in C. destruct (df_style d =? K_CHAR) eqn:EC.
  - destruct C as (s & -> & NZ & ->). rewrite (shaped_str _ _ _ SH).
    set (m := Z.to_nat (df_len d)). set (j := Nat.min m (List.length s)).
    assert (LJ : List.length (firstn j s) = j) by (rewrite firstn_length; lia).
    replace (repeat 0 m) with (repeat 0 j ++ repeat 0 (m - j)) by (rewrite <- repeat_app; f_equal; lia).
    rewrite <- app_assoc. rewrite splice_mid by (rewrite repeat_length; lia).
    rewrite filled_split. fold j. destruct (Nat.ltb_spec j m) as [L|L].
    + replace (m - j)%nat with (S (m - j - 1)) by lia. cbn [repeat app].
      replace (List.length A + j)%nat with (List.length (A ++ firstn j s)) by (rewrite app_length; lia).
      rewrite (app_assoc A (firstn j s)). change (0 :: repeat 0 (m - j - 1) ++ P) with ([0] ++ repeat 0 (m - j - 1) ++ P).
      rewrite splice_mid by reflexivity. f_equal. rewrite <- !app_assoc. reflexivity.
    + rewrite <- app_assoc. reflexivity.
  - destruct C as (z & s & -> & SP & R & V). destruct SD as [(W1 & W2)|X]; [|unfold K_CHAR in *; lia].
    destruct (kind_put _ W1) as (_ & ->). rewrite (shaped_num _ _ _ SH), (atoll_spells z s SP R).
    unfold fset. cbn [flen foff]. rewrite (int_len_whole d W2).
    replace (base + Z.to_nat off + 0 * Z.to_nat (df_len d))%nat with (List.length A) by lia.
    rewrite splice_mid by (rewrite le_bytes_length, repeat_length; reflexivity). f_equal. f_equal. f_equal.
    apply bytes_of; [exact B|exact LB|]. rewrite V, pow_width by (pose proof (good_space d G); lia). do 2 f_equal. pose proof (good_space d G). lia.
Qed.

(** ** setting a row *)
(** the values of consecutive fields, the bytes of the record from there on *)
Fixpoint cells (gs : list fdef) (R : list Z) (es : list jv) : Prop :=
  match gs, es with
  | [], [] => R = []
  | d :: gs', e :: es' => let n := Z.to_nat (df_len d) in cell d (firstn n R) e /\ cells gs' (skipn n R) es'
  | _, _ => False
  end.
Lemma simple_space d : good_def d = true -> simple_def d -> space d = df_len d /\ 1 <= df_len d.
Proof. intros G (C & _). destruct (good_space d G) as (A & _ & ->). rewrite C. lia. Qed.
Lemma cells_from gs : forall off A R es, Forall (fun d => good_def d = true /\ simple_def d) gs -> 0 <= off ->
  List.length A = Z.to_nat off -> Z.of_nat (List.length R) = total gs ->
  Forall2 (fun x e => cell (fst x) (field_bytes (A ++ R) x) e) (seqp off gs) es -> cells gs R es.
Proof.
  induction gs as [|d gs IH]; intros off A R es G HO LA LR H; cbn [seqp] in H.
  - inversion H; subst. cbn in LR. destruct R; [reflexivity|discriminate LR].
  - inversion H as [|? e ? es' C H']; subst. inversion G as [|? ? [Gd Sd] G']; subst. destruct (simple_space d Gd Sd) as (SP & L1).
    change (total (d :: gs)) with (space d + total gs) in LR. pose proof (total_pos gs).
    cbn [cells]. split.
    + unfold field_bytes, bytes_at in C. cbn [fst snd] in C. rewrite <- LA, skipn_app, skipn_all, Nat.sub_diag in C. exact C.
    + apply (IH (off + space d) (A ++ firstn (Z.to_nat (df_len d)) R)); [exact G'|lia| | |].
      * rewrite app_length, firstn_length. lia.
      * rewrite skipn_length. lia.
      * rewrite <- app_assoc, firstn_skipn. exact H'.
Qed.
Lemma put_row_ok gs : forall off fidx base A R P es n all,
  Forall (fun d => good_def d = true /\ simple_def d) gs -> 0 <= off -> off + total gs < 65536 ->
  List.length A = (base + Z.to_nat off)%nat -> Z.of_nat (List.length R) = total gs -> Forall is_byte R ->
  cells gs R es -> arr_shape 0 all (jkids n) -> skipn fidx all = es -> Z.of_nat (List.length all) < 2 ^ 31 ->
  put_row base (map unit_at (seqp off gs)) (Z.of_nat fidx) n (A ++ repeat 0 (Z.to_nat (total gs)) ++ P) = Some (A ++ R ++ P).
Proof.
  induction gs as [|d gs IH]; intros off fidx base A R P es n all G HO HT LA LR B C SH SK LL.
  - destruct es; [|contradiction]. cbn [cells] in C. subst R. reflexivity.
  - destruct es as [|e es]; [contradiction|]. cbn [cells] in C. destruct C as [C1 C2].
    inversion G as [|? ? [Gd Sd] G']; subst. destruct (simple_space d Gd Sd) as (SP & L1).
    change (total (d :: gs)) with (space d + total gs) in *. pose proof (total_pos gs).
    cbn [seqp map put_row]. destruct (unit_len d off Gd) as (_ & UC). rewrite UC.
    replace (df_count d) with 1 by (symmetry; apply Sd). change (Z.to_nat 1) with 1%nat. cbn [put_elems].
    assert (NE : nth_error all fidx = Some e).
    { clear -SK. revert all SK. induction fidx as [|f IH]; intros [|x all] SK; try discriminate; [injection SK as -> _; reflexivity|]. apply IH. exact SK. }
    assert (FL : (fidx < List.length all)%nat) by (apply nth_error_Some; congruence).
    pose proof (lldtoa_dec (Z.of_nat fidx) ltac:(lia)) as DK.
    pose proof (arr_find all 0 (jkids n) (lldtoa (Z.of_nat fidx)) fidx SH DK) as F. rewrite NE in F. destruct F as (c & k & F1 & F2).
    set (m := Z.to_nat (df_len d)) in *.
    replace (repeat 0 (Z.to_nat (space d + total gs))) with (repeat 0 m ++ repeat 0 (Z.to_nat (total gs))) by (rewrite <- repeat_app; f_equal; lia).
    rewrite <- app_assoc.
    assert (PC : put_elem base (unit_at (d, off)) 0 (lldtoa (Z.of_nat fidx)) n (A ++ repeat 0 m ++ repeat 0 (Z.to_nat (total gs)) ++ P) =
                 Some (A ++ firstn m R ++ repeat 0 (Z.to_nat (total gs)) ++ P)).
    { apply (put_cell base d off (lldtoa (Z.of_nat fidx)) n c e k (firstn m R) A (repeat 0 (Z.to_nat (total gs)) ++ P)); try assumption; try lia.
      - rewrite find_nopoint by exact (dec_nopoint _ _ DK). exact F1.
      - rewrite <- (firstn_skipn m R) in B. apply Forall_app in B. tauto.
      - rewrite firstn_length. unfold m in *. lia. }
    rewrite PC.
    rewrite (app_assoc A (firstn m R)).
    replace (Z.of_nat fidx + Z.of_nat 1) with (Z.of_nat (S fidx)) by lia.
    rewrite (IH (off + space d) (S fidx) base (A ++ firstn m R) (skipn m R) P es n all); try assumption; try lia.
    + rewrite <- app_assoc, (app_assoc (firstn m R)), firstn_skipn. reflexivity.
    + rewrite app_length, firstn_length. lia.
    + rewrite skipn_length. lia.
    + rewrite <- (firstn_skipn m R) in B. apply Forall_app in B. tauto.
    + replace (S fidx) with (fidx + 1)%nat by lia. rewrite Nat.add_comm, <- skipn_skipn', SK. reflexivity.
Qed.
Definition row_node (gs : list fdef) (rec : list Z) (j : jnode) : Prop :=
  exists es, cells gs rec es /\ arr_shape 0 es (jkids j) /\ List.length es = List.length gs.
Lemma cells_length gs : forall R es, cells gs R es -> List.length es = List.length gs.
Proof. induction gs as [|d gs IH]; intros R [|e es] H; try contradiction; [reflexivity|]. cbn in *. f_equal. apply (IH (skipn (Z.to_nat (df_len d)) R)). apply H. Qed.
Lemma total_count gs : Forall (fun d => good_def d = true /\ simple_def d) gs -> Z.of_nat (List.length gs) <= total gs.
Proof.
  induction 1 as [|d gs [G S] _ IH]; [cbn; lia|]. change (total (d :: gs)) with (space d + total gs). destruct (simple_space d G S). cbn [List.length]. lia.
Qed.
Lemma put_rows_ok gs size : Forall (fun d => good_def d = true /\ simple_def d) gs -> total gs < 65536 -> Z.of_nat size = total gs ->
  forall recs js index A, Forall2 (row_node gs) recs js -> Forall (fun r => Forall is_byte r /\ List.length r = size) recs ->
  List.length A = (index * size)%nat ->
  put_rows size (List.length gs) (map unit_at (seqp 0 gs)) index js (A ++ repeat 0 (List.length js * size)) = Some (A ++ List.concat recs).
Proof.
  intros G T E recs js index A H. revert index A. induction H as [|rec j recs js (es & C & SH & LE) _ IH]; intros index A B LA.
  - cbn [put_rows List.length List.concat Nat.mul repeat]. reflexivity.
  - inversion B as [|? ? (B1 & B2) B3]; subst. cbn [put_rows List.concat]. rewrite (arr_length _ _ _ SH), LE, Nat.eqb_refl.
    pose proof (total_count gs G).
    assert (X : put_row (index * List.length rec) (map unit_at (seqp 0 gs)) 0 j (A ++ repeat 0 (List.length (j :: js) * List.length rec)) =
                Some (A ++ rec ++ repeat 0 (List.length js * List.length rec))).
    { cbn [List.length Nat.mul]. rewrite repeat_app. replace (List.length rec) with (Z.to_nat (total gs)) at 2 by lia.
      change 0 with (Z.of_nat 0) at 2. change 0 with (Z.of_nat 0) at 1.
      apply (put_row_ok gs 0 0 (index * List.length rec) A rec _ es j es); try assumption; try lia; try reflexivity. }
    rewrite X. rewrite (app_assoc A rec). rewrite IH; [rewrite <- app_assoc; reflexivity|exact B3|rewrite app_length; lia].
Qed.

(** ** texts of arrays *)
Lemma row_shaped ds gs rec v k j : layout ds = seqp 0 gs -> Forall (fun d => good_def d = true /\ simple_def d) gs -> Z.of_nat (List.length rec) = total gs ->
  row ds rec v -> shaped v k j -> row_node gs rec j /\ jty j = 6.
Proof.
  intros E G L (l & -> & F) SH. rewrite E in F.
  apply shaped_arr in SH as (_ & TY & _ & SH). split; [|exact TY].
  pose proof (cells_from gs 0 [] rec l G ltac:(lia) eq_refl L F) as C. exists l. split; [exact C|]. split; [exact SH|]. exact (cells_length _ _ _ C).
Qed.
Lemma cell_type d b e k c : cell d b e -> shaped e k c -> (jty c =? 6) = false.
Proof.
  unfold cell. destruct (df_style d =? K_CHAR).
  - intros (s & -> & _) (_ & -> & _). reflexivity.
  - intros (z & s & -> & _) (_ & [(-> & _)|(-> & _)] & _); reflexivity.
Qed.
Lemma arr_head l ks : arr_shape 0 l ks -> l <> [] -> exists e c s, hd_error l = Some e /\ hd_error ks = Some c /\ shaped e (Some s) c.
Proof.
  destruct l as [|e l], ks as [|c ks]; cbn [arr_shape]; try contradiction; intros H N; try congruence.
  destruct H as [(s & _ & H) _]. exists e, c, s. split; [reflexivity|]. split; [reflexivity|exact H].
Qed.
Lemma rows_from ds gs (size : nat) : layout ds = seqp 0 gs -> Forall (fun d => good_def d = true /\ simple_def d) gs -> Z.of_nat size = total gs ->
  forall recs l, Forall2 (row ds) recs l -> Forall (fun r => Forall is_byte r /\ List.length r = size) recs ->
  forall i ks, arr_shape i l ks -> Forall2 (row_node gs) recs ks.
Proof.
  intros E G S recs l H. induction H as [|rec v recs l R _ IH]; intros B i [|c ks] SH; cbn [arr_shape] in SH; try contradiction; [constructor|].
  destruct SH as [(s & _ & SH) SH']. inversion B as [|? ? (B1 & B2) B3]; subst. constructor; [|exact (IH B3 _ _ SH')].
  apply (row_shaped ds gs rec v (Some s) c E G); [lia|exact R|exact SH].
Qed.
Lemma array_set ds t recs v txt d : simple_table ds -> create ds = Some t -> Forall (record ds) recs -> rows ds recs v ->
  jtext false v txt -> Z.of_nat (List.length txt) < 2 ^ 31 -> (List.length txt <= d)%nat ->
  array_to_struct d t txt = CBytes (List.concat recs).
Proof.
  intros ST C RR RV J L1 L2. destruct (table_made ds t ST C) as (M & LY & TT). set (gs := filter good_def ds) in *. destruct M as [G T S U N NE].
  assert (CV : container v) by (destruct RV as [(r & _ & l & -> & _)|(_ & l & -> & _)]; exact Logic.I).
  destruct (C50_partial v [] txt [] d J CV ltac:(constructor) L1 L2) as (n & LD & SH). cbn [app] in LD. rewrite app_nil_r in LD.
  unfold array_to_struct. rewrite LD, U, N, S. pose proof (total_pos gs).
  assert (B : Forall (fun r => Forall is_byte r /\ List.length r = Z.to_nat (total gs)) recs).
  { eapply Forall_impl; [|exact RR]. intros r (B1 & B2). split; [exact B1|]. lia. }
  assert (NG : seqp 0 gs <> []) by (destruct gs; [congruence|discriminate]).
  destruct RV as [(rec & -> & R)|(NR & l & -> & R)].
  - inversion B as [|? ? (B1 & B2) _]; subst.
    destruct (row_shaped ds gs rec v None n LY G ltac:(lia) R SH) as (RN & _).
    pose proof R as (l & -> & F). rewrite LY in F.
    pose proof SH as SH'. apply shaped_arr in SH' as (_ & _ & _ & SH').
    assert (NL : l <> []) by (intros ->; inversion F; congruence).
    destruct (arr_head _ _ SH' NL) as (e & c & s & H1 & H2 & H3).
    assert (TY : (jty c =? 6) = false).
    { destruct l as [|x l]; [congruence|]. injection H1 as ->. inversion F; subst. eapply cell_type; eassumption. }
    destruct (jkids n) as [|c' ks] eqn:K; [discriminate|]. injection H2 as ->. rewrite TY.
    pose proof (put_rows_ok gs (Z.to_nat (total gs)) G T ltac:(lia) [rec] [n] 0 []) as P. cbn [app] in P. rewrite P; [reflexivity| |exact B|reflexivity].
    constructor; [exact RN|constructor].
  - apply shaped_arr in SH as (_ & _ & _ & SH).
    pose proof (rows_from ds gs (Z.to_nat (total gs)) LY G ltac:(lia) recs l R B 0 (jkids n) SH) as RN.
    assert (TY : match jkids n with c :: _ => jty c =? 6 | [] => false end = true).
    { destruct R as [|r0 v0 recs l R0 R']; [congruence|]. destruct (jkids n) as [|c ks]; [contradiction|]. cbn [arr_shape] in SH. destruct SH as [(s & _ & SH) _].
      destruct R0 as (l0 & -> & _). apply shaped_arr in SH as (_ & -> & _). reflexivity. }
    rewrite TY.
    pose proof (put_rows_ok gs (Z.to_nat (total gs)) G T ltac:(lia) recs (jkids n) 0 []) as P. cbn [app] in P. rewrite P; [reflexivity|exact RN|exact B|reflexivity].
Qed.
Lemma text_first v txt : jtext false v txt -> match v with JArr _ => hd 0 txt = 91 | JObj _ => hd 0 txt = 123 | _ => True end.
Proof. intros H. inversion H; subst; try exact Logic.I; reflexivity. Qed.

(** ** texts of objects *)
Lemma find_named l : forall ks name, obj_shape l ks ->
  match find (fun kv => same_name (fst kv) name) l with
  | Some kv => exists c, find_key ks name = Some c /\ shaped (snd kv) (Some (fst kv)) c
  | None => find_key ks name = None
  end.
Proof.
  induction l as [|[k v] l IH]; intros [|c ks] name H; cbn [obj_shape] in H; try contradiction; [reflexivity|].
  destruct H as [S H]. assert (K : jkey c = Some k) by (destruct v; apply S). cbn [find find_key fst]. rewrite K.
  change (case_eq k name) with (same_name k name). destruct (same_name k name).
  - exists c. split; [reflexivity|exact S].
  - apply IH. exact H.
Qed.
Lemma put_fields_ok gs : forall off A R n l,
  Forall (fun d => good_def d = true /\ simple_def d) gs -> Forall (fun d => ~ In 46 (df_name d) /\ (List.length (df_name d) <= 31)%nat) gs ->
  0 <= off -> off + total gs < 65536 -> List.length A = Z.to_nat off -> Z.of_nat (List.length R) = total gs -> Forall is_byte R ->
  obj_shape l (jkids n) ->
  Forall (fun x => match find (fun kv => same_name (fst kv) (df_name (fst x))) l with
                   | Some kv => cell (fst x) (field_bytes (A ++ R) x) (snd kv)
                   | None => field_bytes (A ++ R) x = repeat 0 (Z.to_nat (df_len (fst x))) end) (seqp off gs) ->
  put_fields (map unit_at (seqp off gs)) n (A ++ repeat 0 (Z.to_nat (total gs))) = Some (A ++ R).
Proof.
  induction gs as [|d gs IH]; intros off A R n l G NM HO HT LA LR B SH F.
  - cbn in LR. destruct R; [|discriminate LR]. reflexivity.
  - inversion G as [|? ? [Gd Sd] G']; inversion NM as [|? ? [N1 N2] NM']; subst. destruct (simple_space d Gd Sd) as (SP & L1).
    change (total (d :: gs)) with (space d + total gs) in *. pose proof (total_pos gs).
    cbn [seqp] in F. inversion F as [|? ? F1 F2]; subst. cbn [fst] in F1.
    cbn [seqp map put_fields]. destruct (unit_len d off Gd) as (_ & UC). rewrite UC.
    replace (df_count d) with 1 by (symmetry; apply Sd). change (Z.to_nat 1) with 1%nat. cbn [put_named]. rewrite UC.
    replace (df_count d) with 1 by (symmetry; apply Sd). change (Z.to_nat 1) with 1%nat. cbn [Nat.ltb Nat.leb].
    assert (FN : f_name (unit_at (d, off)) = df_name d) by (apply (firstn_all2 (n := 31)); lia). rewrite FN.
    set (m := Z.to_nat (df_len d)) in *.
    assert (FB : field_bytes (A ++ R) (d, off) = firstn m R).
    { unfold field_bytes, bytes_at. cbn [fst snd]. rewrite <- LA, skipn_app, skipn_all, Nat.sub_diag. reflexivity. }
    rewrite FB in F1.
    assert (LF : List.length (firstn m R) = m) by (rewrite firstn_length; unfold m; lia).
    assert (BF : Forall is_byte (firstn m R) /\ Forall is_byte (skipn m R)) by (rewrite <- (firstn_skipn m R) in B; apply Forall_app in B; exact B).
    replace (repeat 0 (Z.to_nat (space d + total gs))) with (repeat 0 m ++ repeat 0 (Z.to_nat (total gs))) by (rewrite <- repeat_app; f_equal; lia).
    assert (PC : put_elem 0 (unit_at (d, off)) 0 (df_name d) n (A ++ repeat 0 m ++ repeat 0 (Z.to_nat (total gs))) =
                 Some (A ++ firstn m R ++ repeat 0 (Z.to_nat (total gs)))).
    { pose proof (find_named l (jkids n) (df_name d) SH) as FD. clear F; revert F1 FD; destruct (find _ l) as [kv|]; intros F1 FD.
      - destruct FD as (c & D1 & D2).
        apply (put_cell 0 d off (df_name d) n c (snd kv) (Some (fst kv)) (firstn m R) A (repeat 0 (Z.to_nat (total gs)))); try assumption; try lia; try tauto.
        rewrite find_nopoint by exact N1. exact D1.
      - rewrite F1. unfold put_elem. rewrite !find_nopoint by exact N1. rewrite FD. change (f_style (unit_at (d, off))) with (df_style d).
        destruct (df_style d =? K_CHAR) eqn:EC; [reflexivity|]. destruct Sd as (_ & [(W1 & W2)|X]); [|unfold K_CHAR in *; lia].
        destruct (kind_put _ W1) as (_ & ->). reflexivity. }
    rewrite PC. rewrite (app_assoc A (firstn m R)).
    rewrite (IH (off + space d) (A ++ firstn m R) (skipn m R) n l); try assumption; try lia; try tauto.
    + rewrite <- app_assoc, firstn_skipn. reflexivity.
    + rewrite app_length. lia.
    + rewrite skipn_length. lia.
    + rewrite <- app_assoc, firstn_skipn. exact F2.
Qed.
Lemma object_set ds t rec v txt d : simple_table ds -> short_names ds -> create ds = Some t -> record ds rec -> named_row ds rec v ->
  jtext false v txt -> Z.of_nat (List.length txt) < 2 ^ 31 -> (List.length txt <= d)%nat ->
  json_to_struct d t txt = CBytes rec.
Proof.
  intros ST SN C (B1 & B2) (l & -> & F) J L1 L2. destruct (table_made ds t ST C) as (M & LY & TT). set (gs := filter good_def ds) in *. destruct M as [G T S U N NE].
  destruct (C50_partial (JObj l) [] txt [] d J Logic.I ltac:(constructor) L1 L2) as (n & LD & SH). cbn [app] in LD. rewrite app_nil_r in LD.
  unfold json_to_struct. rewrite LD, U, S. apply shaped_obj in SH as (_ & _ & _ & SH). rewrite LY in F.
  pose proof (put_fields_ok gs 0 [] rec n l) as P. cbn [app] in P. rewrite P; try assumption; try lia; try reflexivity.
  apply Forall_forall. intros x I. apply filter_In in I. unfold short_names in SN. rewrite Forall_forall in SN. apply SN. tauto.
Qed.

(** ** showing *)
Definition item_of (d : fdef) (b : list Z) : item :=
  if df_style d =? K_CHAR then IStr (cstr b) else IUint (number (df_style d) (df_len d) b).
Fixpoint its (gs : list fdef) (R : list Z) : list item :=
  match gs with [] => [] | d :: r => let n := Z.to_nat (df_len d) in item_of d (firstn n R) :: its r (skipn n R) end.
Definition item_fine (x : item) : Prop :=
  match x with IStr s => Forall (fun c => plain c \/ c = 34) s /\ Z.of_nat (List.length s) < 2 ^ 28 | IUint v => - 2 ^ 63 < v < 2 ^ 63 end.
Lemma before0_cstr l : cstr l = before0 l.
Proof. reflexivity. Qed.
Lemma elem_ok base d off A b P : good_def d = true -> simple_def d -> 0 <= off < 65536 -> List.length A = (base + Z.to_nat off)%nat ->
  List.length b = Z.to_nat (df_len d) -> item_fine (item_of d b) -> elem_item base (unit_at (d, off)) (A ++ b ++ P) 0 = Some (item_of d b).
Proof.
  intros G (_ & SD) HO LA LB FI. destruct (unit_len d off G) as (UL & _). pose proof (unit_off d off HO) as UO.
  pose proof (good_space d G) as (L1 & _).
  unfold elem_item, item_of in *. change (f_style (unit_at (d, off))) with (df_style d).
  unfold fget_int, fget_uint, at_base. cbn [flen foff]. rewrite UL, UO.
  replace (base + Z.to_nat off + 0 * Z.to_nat (df_len d))%nat with (List.length A) by lia.
  rewrite (slice_mid A b P _ LB).
  destruct SD as [(W1 & W2)|X].
  - rewrite (int_len_whole d W2). destruct (kind_put _ W1) as (NC & WK). rewrite NC in *. cbn [item_fine] in FI. unfold number in *.
    destruct (df_style d =? K_INT) eqn:EI.
    + rewrite Z2Nat.id by lia. destruct (Z.eqb_spec (to_s (8 * df_len d) (le_val b)) (- 2 ^ 63)); [lia|reflexivity].
    + rewrite orb_false_r in WK. rewrite WK. reflexivity.
  - rewrite X. reflexivity.
Qed.
Lemma row_items_ok gs : forall off base A R P, Forall (fun d => good_def d = true /\ simple_def d) gs -> 0 <= off -> off + total gs < 65536 ->
  List.length A = (base + Z.to_nat off)%nat -> Z.of_nat (List.length R) = total gs -> Forall item_fine (its gs R) ->
  row_items base (map unit_at (seqp off gs)) (A ++ R ++ P) = Some (its gs R).
Proof.
  induction gs as [|d gs IH]; intros off base A R P G HO HT LA LR FI; [reflexivity|].
  inversion G as [|? ? [Gd Sd] G']; subst. destruct (simple_space d Gd Sd) as (SP & L1).
  change (total (d :: gs)) with (space d + total gs) in *. pose proof (total_pos gs).
  cbn [its] in FI. inversion FI as [|? ? F1 F2]; subst.
  cbn [seqp map row_items]. destruct (unit_len d off Gd) as (_ & UC). rewrite UC.
  replace (df_count d) with 1 by (symmetry; apply Sd). change (Z.to_nat 1) with 1%nat. cbn [elem_items].
  set (m := Z.to_nat (df_len d)) in *.
  assert (LF : List.length (firstn m R) = m) by (rewrite firstn_length; unfold m; lia).
  assert (E1 : elem_item base (unit_at (d, off)) (A ++ R ++ P) 0 = Some (item_of d (firstn m R))).
  { rewrite <- (firstn_skipn m R) at 1. rewrite <- app_assoc. apply elem_ok; try assumption. lia. }
  rewrite E1.
  assert (E2 : row_items base (map unit_at (seqp (off + space d) gs)) (A ++ R ++ P) = Some (its gs (skipn m R))).
  { replace (A ++ R ++ P) with ((A ++ firstn m R) ++ skipn m R ++ P) by (rewrite <- app_assoc, (app_assoc (firstn m R)), firstn_skipn; reflexivity).
    apply IH; try assumption; try lia; [rewrite app_length; lia|rewrite skipn_length; lia]. }
  rewrite E2. reflexivity.
Qed.
Lemma mem_rows_ok gs size : Forall (fun d => good_def d = true /\ simple_def d) gs -> total gs < 65536 -> Z.of_nat size = total gs ->
  forall recs k A, Forall (fun r => List.length r = size /\ Forall item_fine (its gs r)) recs -> List.length A = (k * size)%nat ->
  mem_rows size (map unit_at (seqp 0 gs)) (A ++ List.concat recs) (List.length recs) k = Some (map (its gs) recs).
Proof.
  intros G T E recs. induction recs as [|r recs IH]; intros k A B LA; [reflexivity|]. inversion B as [|? ? (B1 & B2) B3]; subst.
  cbn [List.concat List.length mem_rows map].
  rewrite (row_items_ok gs 0 (k * List.length r) A r (List.concat recs)); try assumption; try lia.
  rewrite app_assoc, (IH (S k)); [reflexivity|exact B3|]. rewrite app_length. cbn [Nat.mul]. lia.
Qed.

(** the tree with the keys it has after reading *)
Lemma fine_shape l : forall i, 0 <= i -> i + Z.of_nat (List.length l) < 2 ^ 31 -> Forall item_fine l -> arr_shape i (map item_val l) (items i l).
Proof.
  induction l as [|x l IH]; intros i I L F; [exact Logic.I|]. inversion F as [|? ? X F']; subst. cbn [List.length] in L.
  assert (R : arr_shape (i + 1) (map item_val l) (items (i + 1) l)) by (apply IH; [lia|lia|exact F']).
  destruct x as [s|v]; cbn [map items arr_shape item_val]; (split; [|exact R]); exists (lldtoa i); (split; [apply lldtoa_dec; lia|]);
    cbn [shaped jkey jty jval jkids].
  - tauto.
  - split; [reflexivity|]. split; [right; split; [reflexivity|apply no_frac; exact X]|]. split; reflexivity.
Qed.
Lemma fine_short l : forall i, Forall item_fine l -> Forall (short (2 ^ 28)) (items i l).
Proof.
  induction l as [|x l IH]; intros i F; [constructor|]. inversion F as [|? ? X F']; subst.
  destruct x as [s|v]; cbn [items]; (constructor; [|apply IH; exact F']); apply short_kids; cbn [short_str]; (split; [|split; [|constructor]]).
  - pose proof (lldtoa_len64 i). change (2 ^ 28) with 268435456. lia.
  - apply X.
  - pose proof (lldtoa_len64 i). change (2 ^ 28) with 268435456. lia.
  - pose proof (lldtoa_len64 v). change (2 ^ 28) with 268435456. lia.
Qed.
Lemma fine_readable l : Forall item_fine l -> readable (JArr (map item_val l)).
Proof.
  intros F. apply readable_arr. split.
  - destruct l as [|x l _] using rev_ind; [cbn; tauto|]. rewrite map_app. cbn [map]. rewrite last_last. destruct x; cbn; tauto.
  - induction F as [|x l X _ IH]; cbn [map]; constructor; [|exact IH]. destruct x as [s|v]; cbn [item_fine item_val readable] in *; [apply X|apply lldtoa_num; exact X].
Qed.
Fixpoint keyed (i : Z) (rs : list (list item)) : list jnode :=
  match rs with [] => [] | r :: q => JN 6 (Some (lldtoa i)) None (items 0 r) :: keyed (i + 1) q end.
Lemma keyed_values fmt dp rs : forall i, map (to_value fmt dp) (keyed i rs) = map (to_value fmt dp) (map (fun r => JN 6 None None (items 0 r)) rs).
Proof. induction rs as [|r rs IH]; intros i; [reflexivity|]. cbn [keyed map]. rewrite IH. reflexivity. Qed.
Lemma keyed_text rs : json_output false (JN 6 None None (keyed 0 rs)) = json_output false (JN 6 None None (map (fun r => JN 6 None None (items 0 r)) rs)).
Proof.
  unfold json_output. cbn [to_value]. change (6 =? 2) with false. change (6 =? 3) with false. change (6 =? 4) with false. change (6 =? 5) with false. change (6 =? 6) with true. cbn [orb].
  rewrite keyed_values. destruct rs; reflexivity.
Qed.
Definition short_row (r : list item) : Prop := Z.of_nat (List.length r) < 2 ^ 31 /\ Forall item_fine r.
Lemma keyed_shape rs : forall i, 0 <= i -> i + Z.of_nat (List.length rs) < 2 ^ 31 -> Forall short_row rs ->
  arr_shape i (map (fun r => JArr (map item_val r)) rs) (keyed i rs).
Proof.
  induction rs as [|r rs IH]; intros i I L F; [exact Logic.I|]. inversion F as [|? ? [X1 X2] F']; subst. cbn [List.length] in L.
  cbn [map keyed arr_shape]. split; [|apply IH; [lia|lia|exact F']]. exists (lldtoa i). split; [apply lldtoa_dec; lia|].
  apply shaped_arr. cbn [jkey jty jval jkids]. split; [reflexivity|]. split; [reflexivity|]. split; [reflexivity|]. apply fine_shape; [lia|lia|exact X2].
Qed.
Lemma keyed_short rs : forall i, Forall short_row rs -> Forall (short (2 ^ 28)) (keyed i rs).
Proof.
  induction rs as [|r rs IH]; intros i F; [constructor|]. inversion F as [|? ? [X1 X2] F']; subst. cbn [keyed]. constructor; [|apply IH; exact F'].
  apply short_kids. cbn [short_str]. split; [pose proof (lldtoa_len64 i); change (2 ^ 28) with 268435456; lia|]. split; [exact Logic.I|]. apply fine_short. exact X2.
Qed.
Definition rows_val (rs : list (list item)) : jv :=
  match rs with [r] => JArr (map item_val r) | _ => JArr (map (fun r => JArr (map item_val r)) rs) end.
Lemma rows_text rs : rs <> [] -> Z.of_nat (List.length rs) < 2 ^ 31 -> Forall short_row rs ->
  exists txt, json_output false (rows_node None rs) = WText txt /\ jtext false (rows_val rs) txt.
Proof.
  intros N L F. destruct rs as [|r [|r2 rs]]; [congruence| |].
  - inversion F as [|? ? [X1 X2] _]; subst. cbn [rows_node rows_val].
    destruct (C52_partial false (JArr (map item_val r)) (JN 6 None None (items 0 r)) Logic.I) as (t & A & B & _).
    + apply fine_readable. exact X2.
    + apply shaped_arr. cbn [jkey jty jval jkids]. split; [reflexivity|]. split; [reflexivity|]. split; [reflexivity|]. apply fine_shape; [lia|lia|exact X2].
    + apply short_kids. cbn [short_str]. split; [exact Logic.I|]. split; [exact Logic.I|]. apply fine_short. exact X2.
    + exists t. split; assumption.
  - unfold rows_node, rows_val. rewrite <- keyed_text. set (rs' := r :: r2 :: rs) in *.
    destruct (C52_partial false (JArr (map (fun r => JArr (map item_val r)) rs')) (JN 6 None None (keyed 0 rs')) Logic.I) as (t & A & B & _).
    + apply readable_arr. split.
      * destruct rs' as [|x l _] using rev_ind; [cbn; tauto|]. rewrite map_app. cbn [map]. rewrite last_last. cbn. tauto.
      * clear -F. induction F as [|x l [X1 X2] _ IH]; cbn [map]; constructor; [apply fine_readable; exact X2|exact IH].
    + apply shaped_arr. cbn [jkey jty jval jkids]. split; [reflexivity|]. split; [reflexivity|]. split; [reflexivity|]. apply keyed_shape; [lia|lia|exact F].
    + apply short_kids. cbn [short_str]. split; [exact Logic.I|]. split; [exact Logic.I|]. apply keyed_short. exact F.
    + exists t. split; assumption.
Qed.

(** the items are what is shown *)
Lemma its_shown gs : forall off A R, Forall (fun d => good_def d = true /\ simple_def d) gs -> 0 <= off -> off + total gs < 65536 ->
  List.length A = Z.to_nat off -> Z.of_nat (List.length R) = total gs ->
  Forall (fun x => if df_style (fst x) =? K_CHAR then Forall (fun c => plain c \/ c = 34) (before0 (field_bytes (A ++ R) x))
                   else - 2 ^ 63 < number (df_style (fst x)) (df_len (fst x)) (field_bytes (A ++ R) x) < 2 ^ 63) (seqp off gs) ->
  Forall item_fine (its gs R) /\ Forall2 (fun x e => shown (fst x) (field_bytes (A ++ R) x) e) (seqp off gs) (map item_val (its gs R)).
Proof.
  induction gs as [|d gs IH]; intros off A R G HO HT LA LR F; [split; constructor|].
  inversion G as [|? ? [Gd Sd] G']; subst. destruct (simple_space d Gd Sd) as (SP & L1).
  change (total (d :: gs)) with (space d + total gs) in *. pose proof (total_pos gs).
  cbn [seqp] in F. inversion F as [|? ? F1 F2]; subst. cbn [fst] in F1. set (m := Z.to_nat (df_len d)) in *.
  assert (FB : field_bytes (A ++ R) (d, off) = firstn m R).
  { unfold field_bytes, bytes_at. cbn [fst snd]. rewrite <- LA, skipn_app, skipn_all, Nat.sub_diag. reflexivity. }
  assert (LF : List.length (firstn m R) = m) by (rewrite firstn_length; unfold m; lia).
  destruct (IH (off + space d) (A ++ firstn m R) (skipn m R)) as (I1 & I2); try assumption; try lia.
  { rewrite app_length. lia. } { rewrite skipn_length. lia. } { rewrite <- app_assoc, firstn_skipn. exact F2. }
  rewrite <- app_assoc, firstn_skipn in I2. rewrite FB in F1.
  cbn [its map seqp]. fold m. split.
  - constructor; [|exact I1]. unfold item_of. destruct (df_style d =? K_CHAR); cbn [item_fine]; [|exact F1]. split; [exact F1|].
    assert (LB : forall l, (List.length (cstr l) <= List.length l)%nat) by (induction l as [|c l IHl]; cbn [cstr List.length]; [lia|destruct (c =? 0); cbn [List.length]; lia]).
    specialize (LB (firstn m R)). rewrite LF in LB. assert (Z.of_nat m < 65536) by (unfold m; lia). change (2 ^ 28) with 268435456. lia.
  - constructor; [|exact I2]. cbn [fst]. rewrite FB. unfold shown, item_of. destruct (df_style d =? K_CHAR); cbn [item_val]; [reflexivity|].
    eexists. split; [reflexivity|]. apply lldtoa_spells. exact F1.
Qed.
Lemma its_length gs : forall R, List.length (its gs R) = List.length gs.
Proof. induction gs as [|d gs IH]; intros R; cbn; [reflexivity|]. rewrite IH. reflexivity. Qed.
Lemma concat_len (size : nat) (recs : list (list Z)) : Forall (fun r => List.length r = size) recs -> List.length (List.concat recs) = (List.length recs * size)%nat.
Proof. induction 1 as [|r recs H _ IH]; [reflexivity|]. cbn [List.concat List.length Nat.mul]. rewrite app_length, IH, H. reflexivity. Qed.
Lemma array_get ds t recs : simple_table ds -> create ds = Some t -> recs <> [] -> Z.of_nat (List.length recs) < 2 ^ 31 -> Forall (showable ds) recs ->
  exists v txt, to_array_text t None (List.concat recs) = Some (WText txt) /\ jtext false v txt /\ shown_rows ds recs v.
Proof.
  intros ST C NR LR RR. destruct (table_made ds t ST C) as (M & LY & TT). set (gs := filter good_def ds) in *. destruct M as [G T S U N NE].
  pose proof (total_pos gs) as TP. pose proof (total_count gs G) as TC.
  assert (NG : (List.length gs <> 0)%nat) by (destruct gs; [congruence|discriminate]).
  assert (B : Forall (fun r => List.length r = Z.to_nat (total gs) /\ Forall item_fine (its gs r)) recs /\ 
              Forall2 (shown_row ds) recs (map (fun r => JArr (map item_val r)) (map (its gs) recs))).
  { clear NR LR. induction RR as [|r recs ((R1 & R2) & R3) _ IH]; [split; constructor|]. rewrite LY in R3.
    destruct (its_shown gs 0 [] r G ltac:(lia) ltac:(lia) eq_refl ltac:(lia) R3) as (I1 & I2). destruct IH as (IH1 & IH2). split.
    - constructor; [|exact IH1]. split; [lia|exact I1].
    - cbn [map]. constructor; [|exact IH2]. eexists. split; [reflexivity|]. rewrite LY. exact I2. }
  destruct B as (B1 & B2).
  assert (CL : List.length (List.concat recs) = (List.length recs * Z.to_nat (total gs))%nat).
  { apply concat_len. eapply Forall_impl; [|exact B1]. intros r X. apply X. }
  assert (Q : to_s 32 (Z.of_nat (List.length (List.concat recs)) / t_size t) = Z.of_nat (List.length recs)).
  { rewrite CL, S, Nat2Z.inj_mul, Z2Nat.id by lia. rewrite Z.div_mul by lia. apply to_s_small; [lia|]. change (2 ^ (32 - 1)) with (2 ^ 31). lia. }
  assert (LN : (List.length recs <> 0)%nat) by (destruct recs; [congruence|discriminate]).
  unfold to_array_text. rewrite Q, N, U, S. replace (_ || _) with false by lia. rewrite Nat2Z.id.
  rewrite (mem_rows_ok gs (Z.to_nat (total gs)) G T ltac:(lia) recs 0 [] B1 eq_refl : mem_rows _ _ (List.concat recs) _ _ = _).
  destruct (rows_text (map (its gs) recs)) as (txt & X1 & X2).
  - destruct recs; [congruence|discriminate].
  - rewrite map_length. exact LR.
  - apply Forall_forall. intros r I. apply in_map_iff in I as (q & <- & I). rewrite Forall_forall in B1. split; [|apply B1; exact I].
    rewrite its_length. change (2 ^ 31) with 2147483648. lia.
  - exists (rows_val (map (its gs) recs)), txt. rewrite X1. split; [reflexivity|]. split; [exact X2|].
    destruct recs as [|r [|r2 recs]]; [congruence| |].
    + inversion B2 as [|? ? ? ? Y _]; subst. exact Y.
    + cbn [map] in *. exists (JArr (map item_val (its gs r)) :: JArr (map item_val (its gs r2)) :: map (fun r => JArr (map item_val r)) (map (its gs) recs)).
      split; [reflexivity|exact B2].
Qed.

(** ** what is shown can be set *)
Lemma number_mod k n b : Forall is_byte b -> 0 < n -> Z.of_nat (List.length b) = n -> le_val b = number k n b mod 2 ^ (8 * n).
Proof.
  intros B P L. pose proof (le_val_bound b B) as V. rewrite L in V. rewrite <- (pow_width n) in V by lia. unfold number. destruct (k =? K_INT).
  - unfold to_s. cbv zeta. set (w := 8 * n) in *. assert (0 < 2 ^ w) by (apply Z.pow_pos_nonneg; lia).
    rewrite (Z.mod_small (le_val b)) by lia. destruct (_ <? _) eqn:E.
    + symmetry. apply Z.mod_small. lia.
    + symmetry. rewrite <- (Z_mod_plus_full _ 1). rewrite Z.mod_small; lia.
  - symmetry. apply Z.mod_small. lia.
Qed.
Lemma before0_nz l : Forall (fun c => c <> 0) (before0 l).
Proof. induction l as [|c l IH]; cbn [before0]; [constructor|]. destruct (c =? 0) eqn:E; constructor; [lia|exact IH]. Qed.
Lemma field_bytes_ok ds rec x : Forall is_byte rec -> Z.of_nat (List.length rec) = total ds -> In x (layout ds) -> Forall (fun d => good_def d = true -> simple_def d) ds ->
  Forall is_byte (field_bytes rec x) /\ Z.of_nat (List.length (field_bytes rec x)) = df_len (fst x) /\ 1 <= df_len (fst x) /\ simple_def (fst x).
Proof.
  intros B L I S. destruct x as [d o]. cbn [fst]. destruct (places_in _ _ _ _ I) as (G & ID & O1 & O2).
  rewrite Forall_forall in S. pose proof (S d ID G) as SD. destruct (simple_space d G SD) as (E & L1).
  unfold field_bytes, bytes_at. cbn [fst snd].
  split; [|split; [|split; [exact L1|exact SD]]].
  - assert (F1 : forall n (l : list Z), Forall is_byte l -> Forall is_byte (firstn n l)).
    { intros n l H. rewrite <- (firstn_skipn n l) in H. apply Forall_app in H. tauto. }
    assert (F2 : forall n (l : list Z), Forall is_byte l -> Forall is_byte (skipn n l)).
    { intros n l H. rewrite <- (firstn_skipn n l) in H. apply Forall_app in H. tauto. }
    apply F1, F2, B.
  - rewrite firstn_length, skipn_length. lia.
Qed.
Lemma shown_row_row ds rec v : simple_table ds -> showable ds rec -> clean ds rec -> shown_row ds rec v -> row ds rec v.
Proof.
  intros (_ & _ & S) ((B & L) & SH) CL (l & -> & F). exists l. split; [reflexivity|].
  unfold clean in CL. rewrite Forall_forall in SH, CL.
  assert (Q : forall x, In x (layout ds) -> In x (layout ds)) by auto. revert Q F. generalize (layout ds) at 1 3 4 as lay. intros lay Q F.
  induction F as [|x e lay l H _ IH]; constructor; [|apply IH; intros y I; apply Q; right; exact I].
  specialize (Q x (or_introl eq_refl)). destruct (field_bytes_ok ds rec x B L Q S) as (F1 & F2 & F3 & _).
  specialize (SH x Q). specialize (CL x Q). unfold shown in H. unfold cell. destruct (df_style (fst x) =? K_CHAR) eqn:E.
  - exists (before0 (field_bytes rec x)). split; [exact H|]. split; [apply before0_nz|]. apply CL. lia.
  - destruct H as (s & -> & SP). exists (number (df_style (fst x)) (df_len (fst x)) (field_bytes rec x)), s.
    split; [reflexivity|]. split; [exact SP|]. split; [lia|]. apply number_mod; [exact F1|lia|exact F2].
Qed.
Lemma shown_rows_rows ds recs v : simple_table ds -> recs <> [] -> Forall (showable ds) recs -> Forall (clean ds) recs -> shown_rows ds recs v -> rows ds recs v.
Proof.
  intros S N A B H. assert (G : forall l, Forall2 (shown_row ds) recs l -> Forall2 (row ds) recs l).
  { intros l F. clear N H. induction F as [|r e recs l X _ IH]; constructor; inversion A; inversion B; subst; [apply shown_row_row; assumption|apply IH; assumption]. }
  destruct recs as [|r [|r2 recs]]; [congruence| |].
  - left. exists r. split; [reflexivity|]. inversion A; inversion B; subst. apply shown_row_row; assumption.
  - right. split; [discriminate|]. destruct H as (l & -> & F). exists l. split; [reflexivity|]. apply G. exact F.
Qed.
