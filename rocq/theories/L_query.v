(** Lemmas for queries (C77). *)
From Coq Require Import String.
From Verif Require Import Base S_sub M_sub L_sub S_csv M_csv L_csv.
From Verif Require Import S_server S_map S_table M_dynamic M_table S_json M_json M_netmsg S_tabdef M_tabdef S_rectext M_rectext.
From Verif Require Import L_map L_incrzip L_table L_json L_jsonwrite L_netmsg P_json L_nettext L_tabdef L_rectext L_convert S_fmap M_fmap L_fmap P_fmap S_query M_query.
From Coq Require Import ZifyBool ZifyNat.
Open Scope list_scope. Open Scope Z_scope.

(** ** members *)
Lemma member_some l ks name v : obj_shape l ks -> member name l = Some v -> exists c k, find_key ks name = Some c /\ shaped v (Some k) c.
Proof.
  intros H M. pose proof (find_named l ks name H) as F. unfold member in M. destruct (find _ l) as [kv|]; [|discriminate].
  cbn in M. injection M as <-. destruct F as (c & A & B). exists c, (fst kv). split; assumption.
Qed.
Lemma member_none l ks name : obj_shape l ks -> member name l = None -> find_key ks name = None.
Proof. intros H M. pose proof (find_named l ks name H) as F. unfold member in M. destruct (find _ l); [discriminate|exact F]. Qed.
Lemma int_of l n name v z d : obj_shape l (jkids n) -> member name l = Some v -> whole v z -> node_int n name d = z.
Proof.
  intros H M (s & -> & S & R). destruct (member_some _ _ _ _ H M) as (c & k & F & SH). unfold node_int, node_str. rewrite F, (shaped_num _ _ _ SH).
  apply atoll_spells; assumption.
Qed.
Lemma int_or l n name z d : obj_shape l (jkids n) -> whole_or (member name l) d z -> node_int n name d = z.
Proof.
  intros H W. destruct (member name l) as [v|] eqn:M; cbn [whole_or] in W; [exact (int_of _ _ _ _ _ _ H M W)|].
  subst z. unfold node_int, node_str. rewrite (member_none _ _ _ H M). reflexivity.
Qed.
Lemma start_there l n va : obj_shape l (jkids n) -> member (bs "start"%string) l = Some va -> has_start n = true.
Proof. intros H M. destruct (member_some _ _ _ _ H M) as (c & k & F & _). unfold has_start. rewrite F. reflexivity. Qed.

(** ** records *)
Section Recs.
Variable mi : list Z -> Z.
Variable quot : Z -> Z -> Z.
Hypothesis Q0 : nonneg_quot quot.
Lemma answered q (l w : list (list Z)) : answers q l w ->
  match q with None => Some [] | Some (i, n) => Some (if (0 <? n) && (0 <=? i) then firstn (Z.to_nat n) (skipn (Z.to_nat i) l) else []) end = Some w.
Proof. destruct q as [[i n]|]; cbn [answers]; [|congruence]. intros (A & B & C & D). replace ((0 <? n) && (0 <=? i)) with true by lia. congruence. Qed.
Lemma range_read u a b p o : in_order mi (fu_recs u) -> times_ok mi (fu_recs u) -> is_int64 a -> is_int64 b -> 0 <= p <= 1 ->
  read_recs mi quot u (mkq false a b o p) = Some (chosen mi (Between a b (p =? 1)) (fu_recs u)).
Proof.
  intros O T A B P. unfold read_recs. cbn [q_where q_start q_stop q_prev].
  assert (E : p = 0 \/ p = 1) by lia. destruct E as [-> | ->].
  - destruct (C16_range mi quot Q0 u a b O T A B) as (q & E & W). change (negb (0 =? 0)) with false. rewrite E. exact (answered _ _ _ W).
  - destruct (C16_prev mi quot Q0 u a b O T A B) as (q & E & W). change (negb (1 =? 0)) with true. rewrite E. exact (answered _ _ _ W).
Qed.
Lemma where_read u m k st p : in_order mi (fu_recs u) -> 0 <= m < 2 ^ 63 -> k <= 0 ->
  read_recs mi quot u (mkq true m st k p) = Some (chosen mi (if k =? 0 then At m else Before m (- k)) (fu_recs u)).
Proof.
  intros O M K. unfold read_recs. cbn [q_where q_start q_offset]. rewrite to_u_small by (change (2 ^ 64) with (2 ^ 63 * 2); lia).
  destruct (Z.eqb_spec k 0) as [->|N].
  - destruct (C16_where mi quot Q0 u m O) as (q & E & W). rewrite E. exact (answered _ _ _ W).
  - destruct (C16_before mi quot Q0 u m k O ltac:(lia)) as (q & E & W). rewrite E. exact (answered _ _ _ W).
Qed.
Lemma newest_read u : in_order mi (fu_recs u) -> times_ok mi (fu_recs u) ->
  read_recs mi quot u (mkq false (- 1) 0 0 0) = Some (chosen mi (Between (- 1) 0 false) (fu_recs u)).
Proof. intros O T. apply (range_read u (- 1) 0 0 0 O T); unfold is_int64; lia. Qed.
Lemma selected_read u l n s : in_order mi (fu_recs u) -> times_ok mi (fu_recs u) -> obj_shape l (jkids n) -> selects l s ->
  read_recs mi quot u (init_cmd (Some n)) = Some (chosen mi s (fu_recs u)).
Proof.
  intros O T H S. unfold selects in S. unfold init_cmd. destruct (member (bs "range"%string) l) as [v|] eqn:MR.
  - destruct S as (r & a & b & p & va & -> & MS & WA & WB & WP & P & ->).
    destruct (member_some _ _ _ _ H MR) as (c & k & -> & SH). apply shaped_obj in SH as (_ & _ & _ & SH).
    rewrite (start_there _ _ _ SH MS), (int_of _ _ _ _ _ _ SH MS WA), (int_or _ _ _ _ _ SH WB), (int_or _ _ _ _ _ SH WP).
    rewrite (to_s_small 8) by (change (2 ^ (8 - 1)) with 128; lia). apply range_read; try assumption.
    + destruct WA as (? & _ & _ & R). exact R.
    + unfold whole_or in WB. destruct (member _ r) in WB; [destruct WB as (? & _ & _ & R); exact R|subst b; unfold is_int64; lia].
  - rewrite (member_none _ _ _ H MR). destruct (member (bs "where"%string) l) as [v|] eqn:MW.
    + destruct S as (r & m & k & va & -> & MS & WA & M0 & WK & K & ->).
      destruct (member_some _ _ _ _ H MW) as (c & kk & -> & SH). apply shaped_obj in SH as (_ & _ & _ & SH).
      unfold get_offset. rewrite (start_there _ _ _ SH MS), (int_of _ _ _ _ _ _ SH MS WA), (int_or _ _ _ _ _ SH WK).
      rewrite (to_s_small 32) by (change (2 ^ (32 - 1)) with (2 ^ 31); lia). destruct WA as (? & _ & _ & R). apply where_read; [exact O|lia|lia].
    + subst s. rewrite (member_none _ _ _ H MW). apply newest_read; assumption.
Qed.

(** ** what is deleted *)
Lemma filter_out (P : list Z -> bool) (l : list (list Z)) : forall a b, (a <= b)%nat -> (b <= List.length l)%nat ->
  (forall k x, nth_error l k = Some x -> (P x = true <-> ~ (a <= k < b)%nat)) -> filter P l = firstn a l ++ skipn b l.
Proof.
  induction l as [|y l IH]; intros a b AB BL H; [destruct a, b; reflexivity|].
  pose proof (H 0%nat y eq_refl) as H0. cbn [List.length] in BL.
  assert (H' : forall c d, (forall k, ~ (c <= k < d)%nat <-> ~ (a <= S k < b)%nat) -> forall k x, nth_error l k = Some x -> (P x = true <-> ~ (c <= k < d)%nat)).
  { intros c d Q k x E. rewrite (H (Datatypes.S k) x E). symmetry. apply Q. }
  destruct a as [|a].
  - destruct b as [|b].
    + cbn [firstn app skipn filter]. replace (P y) with true by (symmetry; apply H0; lia). f_equal.
      rewrite (IH 0%nat 0%nat) by (lia || apply H'; lia). reflexivity.
    + cbn [firstn app skipn filter]. replace (P y) with false by (symmetry; apply not_true_iff_false; intros X; apply H0 in X; lia).
      rewrite (IH 0%nat b) by (lia || apply H'; lia). reflexivity.
  - destruct b as [|b]; [lia|]. cbn [firstn app skipn filter]. replace (P y) with true by (symmetry; apply H0; lia). f_equal.
    apply IH; [lia|lia|apply H'; lia].
Qed.
Lemma filter_all (P : list Z -> bool) l : (forall x, In x l -> P x = true) -> filter P l = l.
Proof. induction l as [|y l IH]; intros H; [reflexivity|]. cbn [filter]. rewrite (H y) by (left; reflexivity). f_equal. apply IH. intros x I. apply H. right. exact I. Qed.
Lemma reidx_recs (u : @funit (list Z)) : fu_recs (reidx mi u) = fu_recs u.
Proof. reflexivity. Qed.
Lemma del_range u a b : in_order mi (fu_recs u) -> times_ok mi (fu_recs u) -> is_int64 a -> is_int64 b ->
  exists u', M_fmap.del mi quot true u a b = Some u' /\ fu_recs u' = left_over mi (Between a b false) (fu_recs u).
Proof.
  intros O T A B. unfold M_fmap.del. destruct (Z_lt_le_dec (count (fu_recs u)) 1) as [C|C].
  - exists u. unfold cmp_range. replace (count (fu_recs u) <? 1) with true by lia. split; [reflexivity|].
    assert (E : fu_recs u = []) by (unfold count in C; destruct (fu_recs u); [reflexivity|cbn in C; lia]). rewrite E. reflexivity.
  - destruct (cmp_range_ok mi quot Q0 u a b false O T A B C) as (_ & _ & E). cbv zeta in E. rewrite E. clear E.
    set (l := fu_recs u) in *. cbn [left_over]. set (s := first_time mi l a). set (e := last_time mi l s b).
    pose proof (below_upto mi l s) as B1. pose proof (below_upto mi l e) as B2.
    destruct (below mi s l <? upto mi e l) eqn:Q.
    + replace ((0 <? upto mi e l - below mi s l) && (0 <=? below mi s l)) with true by lia. eexists. split; [reflexivity|].
      rewrite reidx_recs. cbn [fu_recs]. symmetry. apply filter_out; [lia|unfold count in B2; lia|].
      intros k x N. destruct (nth_mindex mi l k x N) as (M & K).
      pose proof (below_nth mi l s (Z.of_nat k) O K) as X. pose proof (upto_nth mi l e (Z.of_nat k) O K) as Y. rewrite M in X, Y.
      rewrite orb_true_iff, !Z.ltb_lt. lia.
    + exists u. split; [reflexivity|]. fold l. symmetry. apply filter_all. intros x I. apply In_nth_error in I as (k & N).
      destruct (nth_mindex mi l k x N) as (M & K).
      pose proof (below_nth mi l s (Z.of_nat k) O K) as X. pose proof (upto_nth mi l e (Z.of_nat k) O K) as Y. rewrite M in X, Y. lia.
Qed.
Lemma del_where u m : in_order mi (fu_recs u) ->
  exists u', M_fmap.del mi quot false u m 0 = Some u' /\ fu_recs u' = left_over mi (At m) (fu_recs u).
Proof.
  intros O. unfold M_fmap.del, cmp_where. pose proof (cmp_same_ok mi quot Q0 u m O) as E. cbv zeta in E. rewrite E. clear E.
  change (0 =? 0) with true. cbv iota. set (l := fu_recs u) in *. cbn [left_over].
  pose proof (below_upto mi l m) as B1.
  destruct (below mi m l <? upto mi m l) eqn:Q.
  - replace (upto mi m l - below mi m l <? 0) with false by lia.
    replace ((0 <? upto mi m l - below mi m l) && (0 <=? below mi m l)) with true by lia. eexists. split; [reflexivity|].
    rewrite reidx_recs. cbn [fu_recs]. symmetry. apply filter_out; [lia|unfold count in B1; lia|].
    intros k x N. destruct (nth_mindex mi l k x N) as (M & K).
    pose proof (below_nth mi l m (Z.of_nat k) O K) as X. pose proof (upto_nth mi l m (Z.of_nat k) O K) as Y. rewrite M in X, Y.
    rewrite negb_true_iff, Z.eqb_neq. lia.
  - exists u. split; [destruct (_ && _); reflexivity|]. fold l. symmetry. apply filter_all. intros x I. apply In_nth_error in I as (k & N).
    destruct (nth_mindex mi l k x N) as (M & K).
    pose proof (below_nth mi l m (Z.of_nat k) O K) as X. pose proof (upto_nth mi l m (Z.of_nat k) O K) as Y. rewrite M in X, Y. lia.
Qed.
End Recs.

(** ** fields *)
Lemma commas_pieces ps : forall names, Forall2 (fun n p => a_name n /\ exists a b, p = a ++ n ++ b /\ S_query.blank a /\ S_query.blank b) names ps ->
  names <> [] -> pieces 44 [] (with_commas ps) = names.
Proof.
  assert (P1 : forall y cur rest, ~ In 44 y -> pieces 44 cur (y ++ 44 :: rest) = c_trim (cur ++ y) :: pieces 44 [] rest).
  { induction y as [|c y IH]; intros cur rest N; cbn [app pieces].
    - rewrite app_nil_r. reflexivity.
    - destruct (Z.eqb_spec c 44); [elim N; left; congruence|]. rewrite IH by (intros K; apply N; right; exact K). rewrite <- app_assoc. reflexivity. }
  assert (P2 : forall y cur, ~ In 44 y -> cur ++ y <> [] -> pieces 44 cur y = [c_trim (cur ++ y)]).
  { induction y as [|c y IH]; intros cur N NE; cbn [pieces].
    - rewrite app_nil_r in *. destruct cur; [congruence|reflexivity].
    - destruct (Z.eqb_spec c 44); [elim N; left; congruence|]. rewrite IH; [rewrite <- app_assoc; reflexivity|intros K; apply N; right; exact K|].
      rewrite <- app_assoc. exact NE. }
  assert (NB : forall a, S_query.blank a -> ~ In 44 a /\ ~ In 0 a /\ blanks a).
  { intros a B. unfold S_query.blank in B. rewrite Forall_forall in B. split; [intros I; specialize (B _ I); lia|]. split; [intros I; specialize (B _ I); lia|].
    unfold blanks. apply Forall_forall. intros c I. specialize (B _ I). lia. }
  assert (TR : forall a n b, a_name n -> S_query.blank a -> S_query.blank b -> c_trim (a ++ n ++ b) = n /\ ~ In 44 (a ++ n ++ b) /\ a ++ n ++ b <> []).
  { intros a n b (N1 & N2 & N3) BA BB. destruct (NB a BA) as (A1 & A2 & A3), (NB b BB) as (B1 & B2 & B3).
    assert (N0 : ~ In 0 n) by (intros I; rewrite Forall_forall in N3; specialize (N3 _ I); lia).
    split; [|split].
    - rewrite app_assoc, trim_app by assumption. unfold c_trim. rewrite chars_id by (intros I; apply in_app_or in I; tauto).
      rewrite rev_app_distr. destruct (exists_last N1) as (n' & c & EN).
      assert (C : 32 < c) by (rewrite Forall_forall in N3; apply N3; rewrite EN; apply in_or_app; right; left; reflexivity).
      rewrite EN, rev_app_distr. cbn [rev app drop_low]. replace (32 <? c) with true by lia. cbn [rev].
      rewrite rev_app_distr, !rev_involutive, <- app_assoc, <- EN.
      clear - A3 N1 N3. induction A3 as [|x a X _ IH]; cbn [app drop_low].
      + apply drop_id. right. destruct n as [|y n]; [congruence|]. inversion N3; assumption.
      + replace (32 <? x) with false by lia. exact IH.
    - intros I. apply in_app_or in I as [I|I]; [tauto|]. apply in_app_or in I. tauto.
    - intros X. apply app_eq_nil in X as [_ X]. apply app_eq_nil in X as [X _]. exact (N1 X). }
  induction ps as [|p ps IH]; intros names F NE; inversion F as [|n ? names' ? (AN & a & b & -> & BA & BB) F']; subst; [congruence|].
  destruct (TR a n b AN BA BB) as (T1 & T2 & T3). destruct ps as [|p2 ps].
  - inversion F'; subst. cbn [with_commas]. rewrite P2 by assumption. cbn [app]. rewrite T1. reflexivity.
  - change (with_commas ((a ++ n ++ b) :: p2 :: ps)) with ((a ++ n ++ b) ++ 44 :: with_commas (p2 :: ps)). rewrite P1 by assumption. cbn [app]. rewrite T1. f_equal.
    apply IH; [exact F'|]. inversion F'; discriminate.
Qed.
Lemma fields_read l n o : obj_shape l (jkids n) -> names_given l o ->
  read_fields (Some n) = match o with None => FAll | Some names => FSome names end.
Proof.
  intros H G. unfold names_given in G. unfold read_fields. destruct (member (bs "fields"%string) l) as [v|] eqn:M.
  - destruct G as (s & -> & G). destruct (member_some _ _ _ _ H M) as (c & k & -> & SH). rewrite (shaped_str _ _ _ SH).
    destruct (Z.eqb_spec (hd 0 s) 42) as [E|E].
    + subst o. destruct s as [|x s]; [discriminate E|]. cbn in E. subst x. reflexivity.
    + destruct G as (names & (NE & ps & -> & F) & ->). rewrite (commas_pieces ps names F NE).
      destruct (with_commas ps) as [|x r]; [reflexivity|]. cbn [hd] in E.
      destruct x as [|p|p]; try reflexivity. repeat (destruct p as [p|p|]; try reflexivity; try congruence).
  - subst o. rewrite (member_none _ _ _ H M). reflexivity.
Qed.
Lemma form_read l n f : obj_shape l (jkids n) -> form_given l f -> get_format n = match f with AsArray => OArray | AsJson => OJson | AsBytes => OBytes end.
Proof.
  intros H G. unfold form_given in G. unfold get_format. destruct (member (bs "format"%string) l) as [v|] eqn:M.
  - destruct G as (c & s & -> & G). destruct (member_some _ _ _ _ H M) as (x & k & -> & SH). rewrite (shaped_str _ _ _ SH).
    destruct f.
    + destruct G as [-> | ->]; reflexivity.
    + destruct G as [-> | ->]; reflexivity.
    + destruct G as [-> | [-> | [-> | [-> | [-> | ->]]]]]; reflexivity.
  - subst f. rewrite (member_none _ _ _ H M). reflexivity.
Qed.

(** ** the fields of a table *)
Lemma same_low a b : same_name a b = true <-> low a = low b.
Proof. unfold same_name, low. destruct (list_eq_dec _ _ _); split; intros; congruence. Qed.
Lemma found_unit ds t n : simple_table ds -> M_table.create ds = Some t ->
  match field_of ds n with Some x => In x (layout ds) /\ field_named t n = Some (unit_at x) | None => field_named t n = None end.
Proof.
  intros (_ & T & _) C. destruct (create_inv ds t C ltac:(lia)) as (I & _). destruct (field_named_spec ds t n I) as (A & B & _).
  unfold field_of. destruct (find _ (layout ds)) as [x|] eqn:F.
  - apply find_some in F as (F1 & F2). split; [exact F1|]. apply A; [exact F1|]. apply same_low. exact F2.
  - apply B. intros x I1 E. pose proof (find_none _ _ F x I1) as X. cbn beta in X. apply same_low in E. congruence.
Qed.
Lemma found_units ds t names xs : simple_table ds -> M_table.create ds = Some t -> fields_named ds names xs ->
  units_named t names = Some (map unit_at xs) /\ Forall (fun x => In x (layout ds)) xs.
Proof.
  intros ST C F. induction F as [|n x names xs H _ (IH1 & IH2)]; [split; [reflexivity|constructor]|].
  pose proof (found_unit ds t n ST C) as U. rewrite H in U. destruct U as (U1 & U2). cbn [units_named map]. rewrite U2, IH1. split; [reflexivity|constructor; assumption].
Qed.
Definition part_item (rec : list Z) (x : fdef * Z) : item := item_of (fst x) (field_bytes rec x).
Lemma part_place ds rec x : simple_table ds -> record ds rec -> In x (layout ds) ->
  good_def (fst x) = true /\ simple_def (fst x) /\ 0 <= snd x < 65536 /\ 1 <= df_len (fst x) /\ snd x + df_len (fst x) <= Z.of_nat (List.length rec) /\
  rec = firstn (Z.to_nat (snd x)) rec ++ field_bytes rec x ++ skipn (Z.to_nat (snd x) + Z.to_nat (df_len (fst x))) rec /\
  List.length (field_bytes rec x) = Z.to_nat (df_len (fst x)).
Proof.
  intros (_ & T & S) (B & L) I. destruct x as [d o]. cbn [fst snd]. destruct (places_in _ _ _ _ I) as (G & ID & O1 & O2).
  rewrite Forall_forall in S. pose proof (S d ID G) as SD. destruct (simple_space d G SD) as (E & L1).
  destruct (field_bytes_ok ds rec (d, o) B L I ltac:(apply Forall_forall; exact S)) as (_ & FL & _). cbn [fst] in FL.
  split; [exact G|]. split; [exact SD|]. split; [lia|]. split; [exact L1|]. split; [lia|]. split; [|lia].
  unfold field_bytes, bytes_at. cbn [fst snd]. replace (skipn (Z.to_nat o + Z.to_nat (df_len d)) rec) with (skipn (Z.to_nat (df_len d)) (skipn (Z.to_nat o) rec)) by (rewrite Base.skipn_skipn'; f_equal; lia).
  rewrite firstn_skipn, firstn_skipn. reflexivity.
Qed.
Lemma cstr_short (b : list Z) : (List.length (cstr b) <= List.length b)%nat.
Proof. induction b as [|c b IH]; [cbn; lia|]. cbn [cstr]. destruct (c =? 0); cbn [List.length]; lia. Qed.
Lemma part_shown ds rec x : simple_table ds -> showable ds rec -> In x (layout ds) ->
  item_fine (part_item rec x) /\ shown (fst x) (field_bytes rec x) (item_val (part_item rec x)).
Proof.
  intros ST (R & F) I. destruct (part_place ds rec x ST R I) as (_ & _ & OO & _ & PL & _ & FL). rewrite Forall_forall in F. specialize (F x I).
  destruct R as (_ & RL). destruct ST as (_ & T & _).
  unfold part_item, item_of, shown in *. destruct (df_style (fst x) =? K_CHAR).
  - cbn [item_fine item_val]. split; [split; [exact F|]|reflexivity].
    pose proof (cstr_short (field_bytes rec x)). change (2 ^ 28) with 268435456. lia.
  - cbn [item_fine item_val]. split; [exact F|]. eexists. split; [reflexivity|]. apply lldtoa_spells. exact F.
Qed.
Lemma part_read ds rec x A P : simple_table ds -> showable ds rec -> In x (layout ds) ->
  elem_items (List.length A) (unit_at x) (A ++ rec ++ P) (f_count (unit_at x)) 0 = Some [part_item rec x].
Proof.
  intros ST SH I. destruct (part_place ds rec x ST (proj1 SH) I) as (G & SD & O & L1 & PL & EQ & FL).
  destruct (part_shown ds rec x ST SH I) as (FI & _). destruct x as [d o]. cbn [fst snd] in *.
  destruct (unit_len d o G) as (_ & UC). rewrite UC. replace (df_count d) with 1 by (symmetry; apply SD). change (Z.to_nat 1) with 1%nat. cbn [elem_items].
  rewrite EQ at 1. rewrite <- !app_assoc. rewrite (app_assoc A).
  rewrite (elem_ok (List.length A) d o (A ++ firstn (Z.to_nat o) rec) (field_bytes rec (d, o))); try assumption; [reflexivity|].
  rewrite app_length, firstn_length. lia.
Qed.
Lemma part_row ds rec xs A P : simple_table ds -> showable ds rec -> Forall (fun x => In x (layout ds)) xs ->
  row_items (List.length A) (map unit_at xs) (A ++ rec ++ P) = Some (map (part_item rec) xs).
Proof.
  intros ST SH F. induction F as [|x xs I _ IH]; [reflexivity|]. cbn [map row_items]. rewrite (part_read ds rec x A P ST SH I), IH. reflexivity.
Qed.
Definition parts (xs : list (fdef * Z)) (recs : list (list Z)) : list (list item) := map (fun rec => map (part_item rec) xs) recs.
Lemma part_rows ds xs recs : simple_table ds -> Forall (fun x => In x (layout ds)) xs -> Forall (showable ds) recs ->
  forall k A, List.length A = (k * Z.to_nat (total ds))%nat ->
  mem_rows (Z.to_nat (total ds)) (map unit_at xs) (A ++ List.concat recs) (List.length recs) k = Some (parts xs recs).
Proof.
  intros ST F. induction 1 as [|r recs SH _ IH]; intros k A LA; [reflexivity|].
  cbn [List.concat List.length mem_rows parts map]. rewrite <- LA. rewrite (part_row ds r xs A (List.concat recs) ST SH F).
  destruct SH as ((_ & RL) & _).
  rewrite app_assoc. rewrite (IH (Datatypes.S k) (A ++ r)); [reflexivity|]. rewrite app_length. lia.
Qed.
Lemma parts_short ds xs recs : simple_table ds -> Forall (fun x => In x (layout ds)) xs -> Forall (showable ds) recs -> Z.of_nat (List.length xs) < 2 ^ 31 ->
  Forall short_row (parts xs recs) /\ Forall2 (shown_part xs) recs (map (fun r => JArr (map item_val r)) (parts xs recs)).
Proof.
  intros ST F SH L. unfold parts. induction SH as [|r recs S0 _ (IH1 & IH2)]; [split; constructor|]. cbn [map].
  assert (Q : Forall item_fine (map (part_item r) xs) /\ Forall2 (fun x e => shown (fst x) (field_bytes r x) e) xs (map item_val (map (part_item r) xs))).
  { clear L IH1 IH2. induction F as [|x xs I _ (J1 & J2)]; [split; constructor|]. destruct (part_shown ds r x ST S0 I). cbn [map]. split; constructor; assumption. }
  destruct Q as (Q1 & Q2). split.
  - constructor; [|exact IH1]. split; [rewrite map_length; exact L|exact Q1].
  - constructor; [|exact IH2]. eexists. split; [reflexivity|exact Q2].
Qed.
Lemma count_recs ds t recs : simple_table ds -> M_table.create ds = Some t -> Forall (record ds) recs -> Z.of_nat (List.length recs) < 2 ^ 31 ->
  rec_count t (List.concat recs) = List.length recs /\ t_size t = total ds /\ 0 < total ds /\ List.length (List.concat recs) = (List.length recs * Z.to_nat (total ds))%nat.
Proof.
  intros ST C R L. destruct (table_made ds t ST C) as (M & LY & TT). destruct M as [G T S U N NE].
  pose proof (total_count _ G) as TC. assert (NG : (List.length (filter good_def ds) <> 0)%nat) by (destruct (filter good_def ds); [congruence|discriminate]).
  assert (CL : List.length (List.concat recs) = (List.length recs * Z.to_nat (total ds))%nat).
  { apply concat_len. eapply Forall_impl; [|exact R]. intros r (_ & X). lia. }
  split; [|split; [congruence|split; [lia|exact CL]]].
  unfold rec_count. rewrite CL, S, <- TT, Nat2Z.inj_mul, Z2Nat.id by lia. rewrite Z.div_mul by lia.
  rewrite to_s_small by (lia || (change (2 ^ (32 - 1)) with (2 ^ 31); lia)). apply Nat2Z.id.
Qed.

(** ** texts *)
Lemma array_keyed fmt dp key rs : to_value fmt dp (array_of key rs) = to_value fmt dp (JN 6 key None (keyed 0 rs)).
Proof.
  unfold array_of. cbn [to_value]. change ((6 =? 2) || (6 =? 3) || (6 =? 4)) with false. change (6 =? 5) with false. change (6 =? 6) with true. cbv iota.
  rewrite keyed_values. destruct rs; reflexivity.
Qed.
Lemma rows_readable rs : Forall short_row rs -> readable (JArr (map (fun r => JArr (map item_val r)) rs)).
Proof.
  intros F. apply readable_arr. split.
  - destruct rs as [|x l _] using rev_ind; [cbn; tauto|]. rewrite map_app. cbn [map]. rewrite last_last. cbn. tauto.
  - induction F as [|x l [X1 X2] _ IH]; cbn [map]; constructor; [apply fine_readable; exact X2|exact IH].
Qed.
Lemma rows_shaped key rs : Z.of_nat (List.length rs) < 2 ^ 31 -> Forall short_row rs ->
  shaped (JArr (map (fun r => JArr (map item_val r)) rs)) key (JN 6 key None (keyed 0 rs)).
Proof.
  intros L F. apply shaped_arr. cbn [jkey jty jval jkids]. split; [reflexivity|]. split; [reflexivity|]. split; [reflexivity|]. apply keyed_shape; [lia|lia|exact F].
Qed.
Lemma array_text rs : Z.of_nat (List.length rs) < 2 ^ 31 -> Forall short_row rs ->
  exists txt, json_output false (array_of None rs) = WText txt /\ jtext false (JArr (map (fun r => JArr (map item_val r)) rs)) txt.
Proof.
  intros L F. destruct (C52_partial false (JArr (map (fun r => JArr (map item_val r)) rs)) (JN 6 None None (keyed 0 rs)) Logic.I (rows_readable rs F) (rows_shaped None rs L F)) as (t & A & B & _).
  - apply short_kids. cbn [short_str]. split; [exact Logic.I|]. split; [exact Logic.I|]. apply keyed_short. exact F.
  - exists t. split; [|exact B]. unfold json_output in *. rewrite array_keyed. exact A.
Qed.
(** an object whose last member is the rows *)
Lemma object_text key pre kpre rs : plain_key key -> Z.of_nat (List.length rs) < 2 ^ 31 -> Forall short_row rs ->
  obj_shape kpre pre -> Forall (fun e => fst e <> [] /\ Forall plain (fst e) /\ readable (snd e)) kpre -> Forall (short (2 ^ 28)) pre ->
  exists txt, json_output false (JN 7 None None (pre ++ [array_of (Some key) rs])) = WText txt /\
    jtext false (JObj (kpre ++ [(key, JArr (map (fun r => JArr (map item_val r)) rs))])) txt.
Proof.
  intros (K1 & K2 & K3) L F SH RD SM.
  destruct (C52_partial false (JObj (kpre ++ [(key, JArr (map (fun r => JArr (map item_val r)) rs))]))
     (JN 7 None None (pre ++ [JN 6 (Some key) None (keyed 0 rs)])) Logic.I) as (t & A & B & _).
  - apply readable_obj. split; [rewrite last_last; cbn; tauto|]. apply Forall_app. split; [exact RD|]. constructor; [|constructor]. cbn [fst snd].
    split; [exact K1|]. split; [exact K2|]. apply rows_readable. exact F.
  - apply shaped_obj. cbn [jkey jty jval jkids]. split; [reflexivity|]. split; [reflexivity|]. split; [reflexivity|].
    clear RD SM. revert pre SH. induction kpre as [|[k v] kpre IH]; intros [|c pre] SH; cbn [obj_shape] in SH; try contradiction.
    + cbn [app obj_shape]. split; [|exact Logic.I]. apply rows_shaped; assumption.
    + cbn [app obj_shape]. split; [apply SH|]. apply IH. apply SH.
  - apply short_kids. cbn [short_str]. split; [exact Logic.I|]. split; [exact Logic.I|]. apply Forall_app. split; [exact SM|]. constructor; [|constructor].
    apply short_kids. cbn [short_str]. split; [exact K3|]. split; [exact Logic.I|]. apply keyed_short. exact F.
  - exists t. split; [|exact B]. rewrite <- A. unfold json_output. cbn [to_value].
    change ((7 =? 2) || (7 =? 3) || (7 =? 4)) with false. change (7 =? 5) with false. change (7 =? 6) with false. change ((7 =? 1) || (7 =? 7)) with true. cbv iota.
    rewrite !map_app. cbn [map]. rewrite array_keyed. reflexivity.
Qed.

(** ** the names of fields *)
Lemma names_shape ds xs : simple_table ds -> plain_names ds -> Forall (fun x => In x (layout ds)) xs ->
  forall i, 0 <= i -> i + Z.of_nat (List.length xs) < 2 ^ 31 ->
  exists fs, obj_shape fs (names_nodes i (map unit_at xs)) /\ numbered_names i xs fs /\
    Forall (fun e => fst e <> [] /\ Forall plain (fst e) /\ readable (snd e)) fs /\ Forall (short (2 ^ 28)) (names_nodes i (map unit_at xs)) /\
    ~ is_bool (snd (last fs ([], JNull))).
Proof.
  intros ST PN F. induction F as [|x xs I _ IH]; intros i I0 L.
  - exists []. split; [exact Logic.I|]. split; [exact Logic.I|]. split; [constructor|]. split; [constructor|]. cbn. tauto.
  - cbn [List.length] in L. destruct (IH (i + 1) ltac:(lia) ltac:(lia)) as (fs & A & B & C & D & E).
    destruct x as [d o]. destruct (places_in _ _ _ _ I) as (G & ID & _). unfold plain_names in PN. rewrite Forall_forall in PN. destruct (PN d ID) as ((P1 & P2 & P3) & P4).
    destruct ST as (_ & _ & S). rewrite Forall_forall in S. pose proof (S d ID G) as SD. destruct (unit_len d o G) as (_ & UC).
    assert (C1 : f_count (unit_at (d, o)) = 1%nat) by (rewrite UC; replace (df_count d) with 1 by (symmetry; apply SD); reflexivity).
    assert (FN : f_name (unit_at (d, o)) = df_name d) by (change (f_name (unit_at (d, o))) with (firstn 31 (df_name d)); apply firstn_all2; exact P4).
    pose proof (lldtoa_spells i ltac:(change (2 ^ 31) with 2147483648 in L; change (2 ^ 63) with 9223372036854775808; lia)) as SP.
    exists ((df_name d, JNum (lldtoa i)) :: fs). cbn [map names_nodes]. rewrite C1, FN. change (1 <? 1)%nat with false. cbn [app].
    split; [|split; [|split; [|split]]].
    + cbn [obj_shape]. split; [|exact A]. cbn [shaped jkey jty jval jkids]. split; [reflexivity|]. split; [right; split; [reflexivity|apply no_frac; change (2 ^ 31) with 2147483648 in L; change (2 ^ 63) with 9223372036854775808; lia]|]. split; reflexivity.
    + cbn [numbered_names fst]. split; [reflexivity|]. split; [|exact B]. exists (lldtoa i). split; [reflexivity|exact SP].
    + constructor; [|exact C]. cbn [fst snd]. split; [exact P1|]. split; [exact P2|]. cbn [readable]. exact (spells_num _ _ SP).
    + constructor; [|exact D]. apply short_kids. cbn [short_str]. split; [exact P3|]. split; [|constructor].
      pose proof (lldtoa_len64 i). change (2 ^ 28) with 268435456. lia.
    + destruct fs as [|f fs]; [cbn; tauto|exact E].
Qed.

(** ** all fields *)
Lemma all_text ds t key recs : simple_table ds -> M_table.create ds = Some t -> plain_key key -> recs <> [] -> Z.of_nat (List.length recs) < 2 ^ 31 ->
  Forall (showable ds) recs ->
  exists v txt, to_array_text t (Some key) (List.concat recs) = Some (WText txt) /\ jtext false (JObj [(key, v)]) txt /\ shown_rows ds recs v.
Proof.
  intros ST C K NR LR SH. assert (R : Forall (record ds) recs) by (eapply Forall_impl; [|exact SH]; intros r X; apply X).
  destruct (count_recs ds t recs ST C R LR) as (RC & TS & TP & CL). destruct (table_made ds t ST C) as (M & LY & TT). destruct M as [G T S U N NE].
  assert (NG : (List.length (filter good_def ds) <> 0)%nat) by (destruct (filter good_def ds); [congruence|discriminate]).
  rewrite <- LY in U.
  assert (LA : Forall (fun x => In x (layout ds)) (layout ds)) by (apply Forall_forall; auto).
  assert (LL : Z.of_nat (List.length (layout ds)) < 2 ^ 31).
  { rewrite LY, seqp_length. pose proof (total_count _ G). change (2 ^ 31) with 2147483648. lia. }
  pose proof (part_rows ds (layout ds) recs ST LA SH 0 [] eq_refl) as PR. cbn [app] in PR.
  destruct (parts_short ds (layout ds) recs ST LA SH LL) as (PS & PV).
  unfold to_array_text. unfold rec_count in RC. set (cnt := to_s 32 _) in *.
  assert (LN : (List.length recs <> 0)%nat) by (destruct recs; [congruence|discriminate]).
  replace ((cnt <? 1) || (Z.of_nat (List.length (t_fields t)) <? 1)) with false by lia.
  rewrite RC, TS, U, PR. destruct recs as [|r [|r2 recs]]; [congruence| |].
  - cbn [parts map rows_node]. set (it := map (part_item r) (layout ds)) in *. inversion PS as [|? ? [P1 P2] _]; subst. destruct K as (K1 & K2 & K3).
    destruct (C52_partial false (JObj [(key, JArr (map item_val it))]) (JN 7 None None [JN 6 (Some key) None (items 0 it)]) Logic.I) as (txt & A & B & _).
    + apply readable_obj. split; [cbn; tauto|]. constructor; [|constructor]. cbn [fst snd]. split; [exact K1|]. split; [exact K2|]. apply fine_readable. exact P2.
    + apply shaped_obj. cbn [jkey jty jval jkids]. split; [reflexivity|]. split; [reflexivity|]. split; [reflexivity|]. cbn [obj_shape]. split; [|exact Logic.I].
      apply shaped_arr. cbn [jkey jty jval jkids]. split; [reflexivity|]. split; [reflexivity|]. split; [reflexivity|]. apply fine_shape; [lia|exact P1|exact P2].
    + apply short_kids. cbn [short_str]. split; [exact Logic.I|]. split; [exact Logic.I|]. constructor; [|constructor].
      apply short_kids. cbn [short_str]. split; [exact K3|]. split; [exact Logic.I|]. apply fine_short. exact P2.
    + exists (JArr (map item_val it)), txt. split; [f_equal; exact A|]. split; [exact B|]. inversion PV; subst. assumption.
  - destruct (object_text key [] [] (parts (layout ds) (r :: r2 :: recs)) K) as (txt & A & B); try assumption; try constructor.
    { unfold parts. rewrite map_length. exact LR. }
    exists (JArr (map (fun r => JArr (map item_val r)) (parts (layout ds) (r :: r2 :: recs)))), txt. split; [f_equal; exact A|]. split; [exact B|].
    cbn [shown_rows]. eexists. split; [reflexivity|exact PV].
Qed.

(** ** bytes *)
Definition cat_opt (o : option (list Z)) (b : list Z) : option (list Z) :=
  match b with [] => o | _ => Some (match o with Some x => x ++ b | None => b end) end.
Lemma cat_opt_app o a b : cat_opt (cat_opt o a) b = cat_opt o (a ++ b).
Proof. destruct a as [|x a], b as [|y b], o as [z|]; cbn; rewrite ?app_nil_r, <- ?app_assoc; reflexivity. Qed.
Lemma no_dot (n : list Z) : ~ In 46 n -> S_sub.has S_sub.DOT n = false /\ S_sub.before_dot n = n /\ S_sub.after_dot n = [].
Proof.
  induction n as [|c n IH]; intros H; [split; [|split]; reflexivity|]. destruct (IH ltac:(intros X; apply H; right; exact X)) as (A & B & C).
  unfold S_sub.has in *. cbn [existsb S_sub.before_dot S_sub.after_dot]. rewrite A, B, C. unfold S_sub.DOT. rewrite (Z.eqb_sym 46 c).
  destruct (Z.eqb_spec c 46) as [E|_]; [elim H; left; exact E|]. split; [|split]; reflexivity.
Qed.
Lemma part_cat ds t rec A P names : simple_table ds -> M_table.create ds = Some t -> record ds rec -> Forall short_name names ->
  forall o, cat_fields t (A ++ rec ++ P) (List.length A) names o = UBytes (cat_opt o (part_bytes ds names rec)).
Proof.
  intros ST C R F. induction F as [|n names (N1 & N2) _ IH]; intros o; [reflexivity|].
  cbn [cat_fields]. unfold part_bytes. cbn [map List.concat]. fold (part_bytes ds names rec). pose proof (found_unit ds t n ST C) as U.
  assert (GF : get_field t n = Some (match field_of ds n with Some x => Some (unit_at x, 0) | None => None end)).
  { unfold get_field. destruct (field_of ds n) as [x|]; [destruct U as (_ & ->); reflexivity|]. rewrite U.
    destruct (no_dot n N1) as (D1 & D2 & D3). rewrite (divide_spec 128 n []); [|lia|rewrite D2; cbn [app]; exact N2|rewrite D3; cbn; lia].
    rewrite D1. cbn [app]. rewrite U. reflexivity. }
  rewrite GF. destruct (field_of ds n) as [x|]; [|exact (IH o)].
  destruct U as (I & _). destruct (part_place ds rec x ST R I) as (G & SD & O & L1 & PL & EQ & FL). destruct x as [d p]. cbn [fst snd] in *.
  destruct (unit_len d p G) as (UL & _). pose proof (unit_off d p O) as UO. rewrite UL, UO.
  rewrite !app_length.
  replace ((0 <=? _) && _) with true by lia.
  replace (Z.to_nat (Z.of_nat (List.length A) + Z.of_nat (Z.to_nat p) + 0 * Z.of_nat (Z.to_nat (df_len d)))) with (List.length (A ++ firstn (Z.to_nat p) rec))
    by (rewrite app_length, firstn_length; lia).
  assert (SL : slice (A ++ rec ++ P) (List.length (A ++ firstn (Z.to_nat p) rec)) (Z.to_nat (df_len d)) = Some (field_bytes rec (d, p))).
  { rewrite EQ at 1. rewrite <- !app_assoc, (app_assoc A). apply slice_mid. exact FL. }
  rewrite SL, IH. f_equal. rewrite <- cat_opt_app. f_equal. destruct (field_bytes rec (d, p)); [cbn in FL; lia|]. destruct o; reflexivity.
Qed.
Lemma part_cats ds t names recs : simple_table ds -> M_table.create ds = Some t -> Forall (record ds) recs -> Forall short_name names ->
  forall k A o, List.length A = (k * Z.to_nat (t_size t))%nat -> t_size t = total ds ->
  cat_rows t (A ++ List.concat recs) names (List.length recs) k o = UBytes (cat_opt o (List.concat (map (part_bytes ds names) recs))).
Proof.
  intros ST C R F. induction R as [|r recs R _ IH]; intros k A o LA TS; [reflexivity|].
  cbn [List.concat List.length cat_rows map]. rewrite <- LA, (part_cat ds t r A (List.concat recs) names ST C R F o).
  rewrite app_assoc, (IH (Datatypes.S k) (A ++ r)), cat_opt_app; [reflexivity| |exact TS]. rewrite app_length. destruct R as (_ & RL). lia.
Qed.
Lemma struct_ok ds t names recs : simple_table ds -> M_table.create ds = Some t -> Forall (record ds) recs -> Forall short_name names ->
  Z.of_nat (List.length recs) < 2 ^ 31 ->
  struct_to_sds t (List.concat recs) names = match List.concat (map (part_bytes ds names) recs) with [] => QNull | b => QBytes b end.
Proof.
  intros ST C R F L. destruct (count_recs ds t recs ST C R L) as (RC & TS & _ & _). unfold struct_to_sds. rewrite RC.
  rewrite (part_cats ds t names recs ST C R F 0 [] None eq_refl TS : cat_rows t (List.concat recs) _ _ _ _ = _).
  destruct (List.concat (map (part_bytes ds names) recs)); reflexivity.
Qed.

(** ** the request *)
Lemma request_read info l d : request info l -> fits info d -> l <> [] \/ info <> None ->
  exists txt n, info = Some txt /\ json_load d txt = LTree n /\ obj_shape l (jkids n).
Proof.
  intros R F N. destruct info as [txt|]; cbn [request fits] in *; [|destruct N; congruence]. destruct F as (F1 & F2).
  destruct (C50_partial (JObj l) [] txt [] d R Logic.I ltac:(constructor) F1 F2) as (n & LD & SH). cbn [app] in LD. rewrite app_nil_r in LD.
  apply shaped_obj in SH as (_ & _ & _ & SH). exists txt, n. split; [reflexivity|]. split; assumption.
Qed.
Lemma firstn_In' {A} n (l : list A) x : In x (firstn n l) -> In x l.
Proof. intros I. rewrite <- (firstn_skipn n l). apply in_or_app. left. exact I. Qed.
Lemma skipn_In' {A} n (l : list A) x : In x (skipn n l) -> In x l.
Proof. intros I. rewrite <- (firstn_skipn n l). apply in_or_app. right. exact I. Qed.
Lemma read_sub mi quot u c w : read_recs mi quot u c = Some w -> (forall x, In x w -> In x (fu_recs u)) /\ (List.length w <= List.length (fu_recs u))%nat.
Proof.
  unfold read_recs. destruct (if q_where c then _ else _) as [[[i n]|]|]; intros H; try discriminate; injection H as <-; [|split; [intros x []|cbn; lia]].
  destruct (_ && _); [|split; [intros x []|cbn; lia]]. split.
  - intros x I. apply firstn_In' in I. apply skipn_In' in I. exact I.
  - rewrite firstn_length, skipn_length. lia.
Qed.
Definition node_of (info : option (list Z)) (n : option jnode) (d : nat) (l : list (list Z * jv)) : Prop :=
  match info, n with
  | None, None => l = []
  | Some txt, Some n => json_load d txt = LTree n /\ obj_shape l (jkids n)
  | _, _ => False
  end.
Lemma request_node info l d : request info l -> fits info d -> exists n, node_of info n d l.
Proof.
  intros R F. destruct info as [txt|].
  - destruct (request_read (Some txt) l d R F ltac:(right; discriminate)) as (txt' & n & E & A & B). injection E as <-. exists (Some n). split; assumption.
  - exists None. exact R.
Qed.
Lemma node_recs mi quot u info n d l s : nonneg_quot quot -> in_order mi (fu_recs u) -> times_ok mi (fu_recs u) -> node_of info n d l -> selects l s ->
  read_recs mi quot u (init_cmd n) = Some (chosen mi s (fu_recs u)).
Proof.
  intros Q O T N S. destruct info as [txt|], n as [n|]; cbn [node_of] in N; try contradiction.
  - apply (selected_read mi quot Q u l n s O T); [apply N|exact S].
  - subst l. cbn in S. subst s. apply (newest_read mi quot Q); assumption.
Qed.
Lemma node_fields info n d l o : node_of info n d l -> names_given l o -> read_fields n = match o with None => FAll | Some names => FSome names end.
Proof.
  intros N G. destruct info as [txt|], n as [n|]; cbn [node_of] in N; try contradiction.
  - apply (fields_read l); [apply N|exact G].
  - subst l. cbn in G. subst o. reflexivity.
Qed.
Lemma node_get mi quot d t u key info n l f : node_of info n d l -> form_given l f ->
  cmd_get mi quot d t u key info = match f with
    | AsBytes => get_sds mi quot t u n
    | AsArray => get_chars mi quot t u key OArray n
    | AsJson => get_chars mi quot t u key OJson n end.
Proof.
  intros N F. unfold cmd_get. destruct info as [txt|], n as [n|]; cbn [node_of] in N; try contradiction.
  - destruct N as (-> & SH). rewrite (form_read l n f SH F). destruct f; reflexivity.
  - subst l. cbn in F. subst f. reflexivity.
Qed.
