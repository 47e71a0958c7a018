(** Lemmas for stored table definitions. *)
From Coq Require Import String.
From Verif Require Import Base S_server S_map S_table M_dynamic M_table S_json M_json M_netmsg S_tabdef M_tabdef.
From Verif Require Import L_map L_incrzip L_table L_json L_jsonwrite L_netmsg P_json L_nettext.
From Coq Require Import ZifyBool ZifyNat.
Open Scope list_scope. Open Scope Z_scope.

(** ** a field and its node *)
Definition undef (u : tfield) : fdef :=
  mkdef (f_name u) (f_style u) (Z.of_nat (f_len u)) (Z.of_nat (f_count u)) (f_dot u) (f_idx u) (f_only u).
(** fields as they come from fine definitions *)
Record fine_unit (u : tfield) : Prop := {
  fu_name : plain_name (f_name u); fu_nlen : (List.length (f_name u) <= 31)%nat;
  fu_kind : In (f_style u) kinds;
  fu_len : 1 <= Z.of_nat (f_len u) <= 65535; fu_count : 1 <= Z.of_nat (f_count u) <= 65535; fu_dot : 0 <= f_dot u < 256 }.

Lemma style_kind k : In k kinds -> get_style (Some [k]) = k.
Proof.
  intros H. repeat (destruct H as [<-|H]; [vm_compute; reflexivity|]). destruct H.
Qed.
Lemma node_int_dec v : 0 <= v < 2 ^ 31 -> to_s 32 (atoll (lldtoa v)) = v.
Proof.
  intros H. rewrite atoll_lldtoa by lia. apply to_s_small; [lia|]. change (2 ^ (32 - 1)) with (2 ^ 31). lia.
Qed.
Lemma def_of_unit u : fine_unit u -> def_of (unit_node u) = Some (undef u).
Proof.
  intros [N NL K L C D].
  assert (HL : to_s 32 (atoll (lldtoa (Z.of_nat (f_len u)))) = Z.of_nat (f_len u)) by (apply node_int_dec; lia).
  assert (HC : to_s 32 (atoll (lldtoa (Z.of_nat (f_count u)))) = Z.of_nat (f_count u)) by (apply node_int_dec; lia).
  assert (HD : to_s 32 (atoll (lldtoa (f_dot u))) = f_dot u) by (apply node_int_dec; lia).
  pose proof (style_kind _ K) as HK.
  destruct u as [n [st ln ct of] dt ix on]. cbn [f_name f_at fstyle flen fcount foff f_dot f_idx f_only] in *.
  unfold def_of, unit_node, undef. cbn [jkey f_name f_at fstyle flen fcount foff f_dot f_idx f_only].
  assert (W : forall l, 
     jkids (JN 6 (Some n) None l) = l) by reflexivity.
  unfold unit_items, node_int, node_str. rewrite !W. cbn [f_name f_at fstyle flen fcount foff f_dot f_idx f_only].
  set (L1 := lldtoa (Z.of_nat ln)) in *. set (C1 := lldtoa (Z.of_nat ct)) in *. set (D1 := lldtoa dt) in *.
  assert (HC0 : (0 <? Z.of_nat ct) = true) by lia.
  destruct ix, on; cbn [app].
  1-3: change (lldtoa (Z.of_nat ln)) with L1; cbn [items]; fold L1 C1 D1; cbn; f_equal; f_equal; assumption.
  destruct (0 <? dt) eqn:Ed.
  - cbn [items]; fold L1 C1 D1; cbn; f_equal; f_equal; assumption.
  - rewrite HC0. cbn [items]; fold L1 C1 D1; cbn; f_equal; f_equal; try assumption. lia.
Qed.
Lemma defs_of_units us : Forall fine_unit us -> defs_of (map unit_node us) = map undef us.
Proof.
  induction 1 as [|u us H _ IH]; [reflexivity|]. cbn [map defs_of]. rewrite def_of_unit by exact H. rewrite IH. reflexivity.
Qed.

(** ** the table comes back *)
Definition build (ds : list fdef) : table := fold_left add_def ds table0.
Lemma build_snoc ds d : build (ds ++ [d]) = add_def (build ds) d.
Proof. unfold build. rewrite fold_left_app. reflexivity. Qed.
Lemma build_good ds : build (filter good_def ds) = build ds.
Proof.
  induction ds as [|d ds IH] using rev_ind; [reflexivity|]. rewrite filter_app. cbn [filter].
  destruct (good_def d) eqn:G; rewrite !build_snoc.
  - rewrite IH. reflexivity.
  - rewrite app_nil_r, add_def_bad by exact G. exact IH.
Qed.

Lemma unit_fine d o : good_def d = true -> fine_def d -> fine_unit (make_unit d o).
Proof.
  intros G F. destruct (F G) as ((N1 & N2) & L & K & D). destruct (good_space d G) as (A & B & _).
  destruct (make_unit_len d o G) as (E1 & E2).
  constructor.
  - unfold make_unit. cbn [f_name]. rewrite firstn_all2 by lia. split; assumption.
  - unfold make_unit. cbn [f_name]. rewrite firstn_all2 by lia. exact L.
  - exact K.
  - lia.
  - lia.
  - unfold make_unit. cbn [f_dot]. unfold to_u. apply Z.mod_pos_bound. reflexivity.
Qed.
Lemma remake d o : good_def d = true -> fine_def d ->
  good_def (undef (make_unit d o)) = true /\ df_name (undef (make_unit d o)) = df_name d /\
  forall o', make_unit (undef (make_unit d o)) o' = make_unit d o'.
Proof.
  intros G F. destruct (F G) as ((N1 & N2) & L & K & D). destruct (good_space d G) as (A & B & _).
  destruct (make_unit_len d o G) as (E1 & E2).
  assert (Nm : df_name (undef (make_unit d o)) = df_name d).
  { unfold undef, make_unit. cbn [df_name f_name]. apply firstn_all2. lia. }
  split; [|split; [exact Nm|]].
  - unfold good_def, undef. cbn [df_style df_len df_count]. rewrite E1, E2. unfold make_unit. cbn [f_at fstyle]. exact G.
  - intros o'. unfold make_unit at 1. rewrite Nm.
    unfold undef. cbn [df_style df_len df_count df_dot df_idx df_only]. rewrite E1, E2.
    unfold make_unit. cbn [f_at fstyle f_dot f_idx f_only]. f_equal.
    destruct (df_style d =? K_PRICE); cbn [andb].
    + destruct (df_dot d =? 0) eqn:E.
      * change (to_u 8 3) with 3. reflexivity.
      * rewrite !(to_u_small 8 (df_dot d)) by (change (2 ^ 8) with 256; lia). rewrite E.
        rewrite !(to_u_small 8 (df_dot d)) by (change (2 ^ 8) with 256; lia). reflexivity.
    + rewrite !(to_u_small 8 (df_dot d)) by (change (2 ^ 8) with 256; lia). reflexivity.
Qed.
Lemma add_same t d : good_def d = true -> fine_def d -> add_def t (undef (make_unit d (t_size t))) = add_def t d.
Proof.
  intros G F. destruct (remake d (t_size t) G F) as (A & B & C).
  rewrite !add_def_good by assumption. unfold add_good. rewrite B, C. reflexivity.
Qed.
Lemma units_good t d : good_def d = true -> t_units (add_def t d) = t_units t ++ [make_unit d (t_size t)].
Proof.
  intros G. rewrite add_def_good by exact G. unfold add_good.
  destruct (mspec _ _) as [[fs x] fr]. reflexivity.
Qed.
Lemma rebuild ds : Forall (fun d => good_def d = true /\ fine_def d) ds ->
  build (map undef (t_units (build ds))) = build ds /\ Forall fine_unit (t_units (build ds)).
Proof.
  induction ds as [|d ds IH] using rev_ind; intros H; [split; [reflexivity|constructor]|].
  apply Forall_app in H as [H1 H2]. destruct (IH H1) as (A & B). inversion H2 as [|? ? [G F] _]; subst.
  rewrite build_snoc, units_good by exact G. rewrite map_app. cbn [map]. rewrite build_snoc, A. split; [apply add_same; assumption|].
  apply Forall_app. split; [exact B|]. constructor; [apply unit_fine; assumption|constructor].
Qed.

(** the list of fields is the list of units *)
Fixpoint numbered (i : Z) (ds : list fdef) : list (list Z * Z) :=
  match ds with [] => [] | d :: r => (df_name d, i) :: numbered (i + 1) r end.
Lemma numbered_snoc ds : forall i d, numbered i (ds ++ [d]) = numbered i ds ++ [(df_name d, i + Z.of_nat (List.length ds))].
Proof.
  induction ds as [|e r IH]; intros i d; cbn [numbered app List.length].
  - rewrite Z.add_0_r. reflexivity.
  - rewrite IH. do 4 f_equal. lia.
Qed.
Lemma numbered_length ds : forall i, List.length (numbered i ds) = List.length ds.
Proof. induction ds as [|e r IH]; intros i; cbn; [reflexivity|]. rewrite IH. reflexivity. Qed.
Lemma numbered_nth ds : forall i n, (n < List.length ds)%nat -> exists k, nth_error (numbered i ds) n = Some (k, i + Z.of_nat n).
Proof.
  induction ds as [|e r IH]; intros i n H; [cbn in H; lia|]. destruct n as [|n].
  - exists (df_name e). cbn. rewrite Z.add_0_r. reflexivity.
  - cbn [numbered nth_error]. destruct (IH (i + 1) n) as [k E]; [cbn [List.length] in H; lia|]. exists k. rewrite E. do 2 f_equal. lia.
Qed.
Lemma position_numbered ds : forall i k, (forall e, In e ds -> same_name (df_name e) k = false) -> position (numbered i ds) k = None.
Proof.
  induction ds as [|e r IH]; intros i k H; [reflexivity|]. cbn [numbered position].
  replace (same_name k (df_name e)) with false.
  - rewrite IH; [reflexivity|]. intros x Hx. apply H. right. exact Hx.
  - symmetry. specialize (H e (or_introl eq_refl)). unfold same_name in *.
    destruct (list_eq_dec Z.eq_dec (map S_server.lower (df_name e)) _); [discriminate|]. destruct (list_eq_dec _ _ _); congruence.
Qed.
Lemma distinct_app ds d : distinct_names (ds ++ [d]) -> distinct_names ds /\
  (good_def d = true -> forall e, In e ds -> good_def e = true -> same_name (df_name e) (df_name d) = false).
Proof.
  induction ds as [|x r IH]; cbn [app distinct_names].
  - intros _. split; [exact Logic.I|]. intros _ e [].
  - intros (A & B). destruct (IH B) as (C & D). split.
    + split; [|exact C]. intros G e I. apply (A G). apply in_or_app. left. exact I.
    + intros G e [<-|I] Ge; [|apply D; assumption]. apply (A Ge d); [|exact G]. apply in_or_app. right. left. reflexivity.
Qed.
Lemma distinct_filter ds : distinct_names ds -> distinct_names (filter good_def ds).
Proof.
  induction ds as [|x r IH]; [exact (fun H => H)|]. cbn [filter distinct_names]. intros (A & B).
  destruct (good_def x) eqn:E; [|apply IH; exact B]. cbn [distinct_names]. split; [|apply IH; exact B].
  intros _ e I G. apply filter_In in I. apply A; tauto.
Qed.
Lemma build_fields ds : Forall (fun d => good_def d = true) ds -> distinct_names ds ->
  t_fields (build ds) = numbered 1 ds /\ List.length (t_units (build ds)) = List.length ds.
Proof.
  induction ds as [|d ds IH] using rev_ind; intros H D; [split; reflexivity|].
  apply Forall_app in H as [H1 H2]. apply distinct_app in D as [D1 D2]. destruct (IH H1 D1) as (A & B). inversion H2 as [|? ? G _]; subst.
  rewrite build_snoc. split.
  - rewrite add_def_good by exact G. unfold add_good. cbn [mspec]. rewrite A.
    rewrite position_numbered.
    + cbn [t_fields]. rewrite numbered_snoc, B. do 3 f_equal. lia.
    + intros e I. apply (D2 G e I). rewrite Forall_forall in H1. apply H1. exact I.
  - rewrite units_good by exact G. rewrite !app_length, B. reflexivity.
Qed.
Lemma fields_from_units t : forall n i, (forall j, (i <= j < i + n)%nat -> field_at t j = nth_error (t_units t) j) ->
  List.length (t_units t) = (i + n)%nat -> fields_from t n i = skipn i (t_units t).
Proof.
  induction n as [|n IH]; intros i H L; cbn [fields_from].
  - rewrite skipn_all2 by lia. reflexivity.
  - rewrite (H i) by lia. destruct (nth_error (t_units t) i) as [u|] eqn:E.
    + rewrite IH; [|intros j J; apply H; lia|lia]. clear -E. revert E. generalize (t_units t). induction i as [|i IH]; intros [|x l] E; try discriminate.
      * injection E as ->. reflexivity.
      * cbn [nth_error] in E. cbn [skipn]. rewrite <- (IH l E). reflexivity.
    + apply nth_error_None in E. lia.
Qed.

(** all that is needed of a table made from a fine definition *)
Lemma fine_created ds t : fine_table ds -> create ds = Some t ->
  fields_of t = t_units t /\ Forall fine_unit (t_units t) /\ create (map undef (t_units t)) = Some t /\ t_units t <> [] /\
  (forall j, (j < List.length (t_fields t))%nat -> exists u, field_at t j = Some u).
Proof.
  intros [F D] C.
  set (gs := filter good_def ds).
  assert (G1 : Forall (fun d => good_def d = true) gs).
  { apply Forall_forall. intros d I. apply filter_In in I. tauto. }
  assert (G2 : Forall (fun d => good_def d = true /\ fine_def d) gs).
  { apply Forall_forall. intros d I. apply filter_In in I. rewrite Forall_forall in F. split; [tauto|]. apply F; tauto. }
  pose proof (build_good ds) as BG. fold gs in BG.
  destruct (build_fields gs G1 (distinct_filter ds D)) as (A1 & A2). destruct (rebuild gs G2) as (B1 & B2).
  unfold create in C. fold (build ds) in C. rewrite <- BG in C.
  destruct (t_size (build gs) =? 0) eqn:Z0; [discriminate|].
  assert (EU : t_units t = t_units (build gs) /\ t_fields t = t_fields (build gs)) by (injection C as <-; split; reflexivity).
  destruct EU as (EU & EF).
  assert (FA : forall j, (j < List.length gs)%nat -> field_at t j = nth_error (t_units t) j).
  { intros j J. unfold field_at. rewrite EF, A1. destruct (numbered_nth gs 1 j J) as [k ->]. unfold unit_of.
    replace (1 + Z.of_nat j <=? 0) with false by lia. f_equal. lia. }
  split; [|split; [|split; [|split]]].
  - unfold fields_of. rewrite fields_from_units; [reflexivity| |].
    + intros j J. apply FA. rewrite EF, A1, numbered_length in J. lia.
    + rewrite EU, A2, EF, A1, numbered_length. reflexivity.
  - rewrite EU. exact B2.
  - rewrite EU. unfold create. fold (build (map undef (t_units (build gs)))). rewrite B1, Z0. exact C.
  - rewrite EU. intros X. rewrite X in A2. destruct gs; [|discriminate A2]. discriminate Z0.
  - intros j J. rewrite EF, A1, numbered_length in J. rewrite FA by exact J.
    destruct (nth_error (t_units t) j) eqn:E; [eexists; reflexivity|]. apply nth_error_None in E. rewrite EU, A2 in E. lia.
Qed.
Lemma node_back name ds t : fine_table ds -> create ds = Some t -> create_node (table_node name t) = Some t.
Proof.
  intros F C. destruct (fine_created ds t F C) as (A & B & D & _).
  unfold create_node, table_node. cbn [jkids].
  change (find_key [JN 7 (Some w_fields) None (map unit_node (fields_of t))] w_fields) with (Some (JN 7 (Some w_fields) None (map unit_node (fields_of t)))).
  cbn [jkids]. rewrite A, defs_of_units by exact B. exact D.
Qed.

Lemma same_unit_refl u : same_unit u u = true.
Proof.
  unfold same_unit. destruct (list_eq_dec _ _ _); [|congruence]. rewrite !Z.eqb_refl, !Nat.eqb_refl, !Bool.eqb_reflx. reflexivity.
Qed.
Lemma same_info_refl t : (forall j, (j < List.length (t_fields t))%nat -> exists u, field_at t j = Some u) -> same_info t t = true.
Proof.
  intros H. unfold same_info. rewrite Nat.eqb_refl. cbn [andb].
  assert (G : forall n i, (i + n <= List.length (t_fields t))%nat -> same_from t t n i = true).
  { induction n as [|n IH]; intros i L; [reflexivity|]. cbn [same_from]. destruct (H i) as [u ->]; [lia|].
    rewrite same_unit_refl, IH by lia. reflexivity. }
  apply G. lia.
Qed.

(** ** the text *)
Definition item_val (i : item) : jv := match i with IStr s => JStr s | IUint v => JNum (lldtoa v) end.
Definition fine_item (i : item) : Prop := match i with IStr s => Forall plain s /\ (List.length s <= 2)%nat | IUint v => 0 <= v < 2 ^ 31 end.
Lemma items_shape l : forall i, 0 <= i -> i + Z.of_nat (List.length l) < 2 ^ 31 -> Forall fine_item l -> arr_shape i (map item_val l) (items i l).
Proof.
  induction l as [|x l IH]; intros i I L F; [exact Logic.I|]. inversion F as [|? ? X F']; subst. cbn [List.length] in L.
  assert (R : arr_shape (i + 1) (map item_val l) (items (i + 1) l)) by (apply IH; [lia|lia|exact F']).
  destruct x as [s|v]; cbn [map items arr_shape item_val]; (split; [|exact R]); exists (lldtoa i); (split; [apply lldtoa_dec; lia|]);
    cbn [shaped jkey jty jval jkids].
  - tauto.
  - split; [reflexivity|]. split; [right; split; [reflexivity|apply no_frac; cbn [fine_item] in X; lia]|]. split; reflexivity.
Qed.
Lemma items_short l : forall i, Forall fine_item l -> Forall (short (2 ^ 28)) (items i l).
Proof.
  induction l as [|x l IH]; intros i F; [constructor|]. inversion F as [|? ? X F']; subst.
  destruct x as [s|v]; cbn [items]; (constructor; [|apply IH; exact F']); apply short_kids; cbn [short_str]; (split; [|split; [|constructor]]).
  - pose proof (lldtoa_len64 i). change (2 ^ 28) with 268435456. lia.
  - destruct X as [_ X]. change (2 ^ 28) with 268435456. lia.
  - pose proof (lldtoa_len64 i). change (2 ^ 28) with 268435456. lia.
  - pose proof (lldtoa_len64 v). change (2 ^ 28) with 268435456. lia.
Qed.
Lemma item_readable x : fine_item x -> readable (item_val x).
Proof.
  destruct x as [s|v]; cbn [fine_item item_val readable].
  - intros [A _]. eapply Forall_impl; [|exact A]. tauto.
  - intros H. apply lldtoa_num. lia.
Qed.
Lemma items_readable l : Forall fine_item l -> readable (JArr (map item_val l)).
Proof.
  intros F. apply readable_arr. split.
  - destruct l as [|x l _] using rev_ind; [cbn; tauto|]. rewrite map_app. cbn [map]. rewrite last_last. destruct x; cbn; tauto.
  - induction F; cbn [map]; constructor; [apply item_readable; assumption|assumption].
Qed.
Lemma fine_items u : fine_unit u -> Forall fine_item (unit_items u) /\ (List.length (unit_items u) <= 5)%nat.
Proof.
  intros [N NL K L C D].
  assert (KP : Forall plain [f_style u]).
  { constructor; [|constructor]. unfold plain. repeat (destruct K as [<-|K]; [lia|]). destruct K. }
  assert (P1 : plain 73) by (unfold plain; lia). assert (P2 : plain 79) by (unfold plain; lia).
  unfold unit_items.
  destruct (f_idx u), (f_only u); cbn [app]; [| | |destruct (0 <? f_dot u); [|destruct (0 <? _)]];
    (split; [|cbn [List.length]; lia]); repeat (apply Forall_cons; [cbn [fine_item List.length]|]); try apply Forall_nil;
    try (split; [repeat (apply Forall_cons; [assumption|]); try apply Forall_nil; assumption|lia]); lia.
Qed.

Definition unit_val (u : tfield) : list Z * jv := (f_name u, JArr (map item_val (unit_items u))).
Definition table_val (nt : list Z * table) : list Z * jv :=
  (fst nt, JObj [(w_fields, JObj (map unit_val (fields_of (snd nt))))]).
Definition dict_val (ts : list (list Z * table)) : jv := JObj (map table_val ts).
Definition dict_node (ts : list (list Z * table)) : jnode := JN 7 None None (map (fun nt => table_node (fst nt) (snd nt)) ts).

Lemma units_shape us : Forall fine_unit us -> obj_shape (map unit_val us) (map unit_node us).
Proof.
  induction 1 as [|u us U _ IH]; [exact Logic.I|]. cbn [map obj_shape unit_val]. split; [|exact IH].
  destruct (fine_items u U) as [F L]. apply shaped_arr. cbn [unit_node jkey jty jval jkids].
  split; [reflexivity|]. split; [reflexivity|]. split; [reflexivity|]. apply items_shape; [lia|lia|exact F].
Qed.
Lemma units_good_ent us : Forall fine_unit us -> Forall good_ent (map unit_val us).
Proof.
  induction 1 as [|u us U _ IH]; cbn [map]; constructor; [|exact IH]. split; [|cbn; tauto].
  destruct (fu_name u U) as [A B]. cbn [unit_val fst snd]. split; [exact A|]. split; [exact B|]. apply items_readable. apply fine_items. exact U.
Qed.
Lemma units_short us : Forall fine_unit us -> Forall (short (2 ^ 28)) (map unit_node us).
Proof.
  induction 1 as [|u us U _ IH]; cbn [map]; constructor; [|exact IH]. apply short_kids. cbn [short_str].
  split; [pose proof (fu_nlen u U); change (2 ^ 28) with 268435456; lia|]. split; [exact Logic.I|]. apply items_short. apply fine_items. exact U.
Qed.
Definition fine_nt (nt : list Z * table) : Prop := plain_name (fst nt) /\ Z.of_nat (List.length (fst nt)) < 2 ^ 28 /\ Forall fine_unit (fields_of (snd nt)).
Lemma dict_value ts : Forall fine_nt ts ->
  readable (dict_val ts) /\ shaped (dict_val ts) None (dict_node ts) /\ short (2 ^ 28) (dict_node ts).
Proof.
  intros H. split; [|split].
  - apply good_readable. induction H as [|nt ts ((N1 & N2) & L & U) _ IH]; cbn [map]; constructor; [|exact IH].
    split; [|cbn; tauto]. cbn [table_val fst snd]. split; [exact N1|]. split; [exact N2|].
    apply good_readable. constructor; [|constructor]. split; [|cbn; tauto]. cbn [fst snd]. split; [discriminate|].
    split; [apply plain_all; reflexivity|]. apply good_readable. apply units_good_ent. exact U.
  - apply shaped_obj. cbn [dict_node jkey jty jval jkids]. split; [reflexivity|]. split; [reflexivity|]. split; [reflexivity|].
    induction H as [|nt ts ((N1 & N2) & L & U) _ IH]; cbn [map obj_shape]; [exact Logic.I|]. unfold table_val at 1. split; [|exact IH].
    apply shaped_obj. cbn [table_node jkey jty jval jkids]. split; [reflexivity|]. split; [reflexivity|]. split; [reflexivity|].
    cbn [obj_shape]. split; [|exact Logic.I].
    apply shaped_obj. cbn [jkey jty jval jkids]. split; [reflexivity|]. split; [reflexivity|]. split; [reflexivity|].
    apply units_shape. exact U.
  - apply short_kids. split; [exact Logic.I|]. split; [exact Logic.I|].
    induction H as [|nt ts ((N1 & N2) & L & U) _ IH]; cbn [map]; constructor; [|exact IH].
    apply short_kids. cbn [short_str]. split; [exact L|]. split; [exact Logic.I|]. constructor; [|constructor].
    apply short_kids. cbn [short_str]. split; [reflexivity|]. split; [exact Logic.I|]. apply units_short. exact U.
Qed.

(** the text is long enough *)
Lemma strlex_len lax s t : strlex lax s t -> (List.length s <= List.length t)%nat.
Proof. induction 1; cbn [List.length] in *; lia. Qed.
Lemma obj_len k l m t : jtext false (JObj ((k, JObj l) :: m)) t -> exists t1, jtext false (JObj l) t1 /\ (List.length t1 + List.length k + 5 <= List.length t)%nat.
Proof.
  intros H. inversion H as [| | | | | |? t' M]; subst.
  inversion M as [? kt ? ? ? ? i W KL W1 W2 IT|? kt ? ? ? ? i ? ? W KL W1 W2 IT M']; subst; destruct KL as [KL _]; apply strlex_len in KL;
    inversion IT as [? ? t1 ? J ?| | |]; subst; exists t1; (split; [exact J|]);
    repeat first [rewrite !app_length | progress cbn [List.length]]; lia.
Qed.
Lemma dict_len nt ts t : fst nt <> [] -> jtext false (dict_val (nt :: ts)) t -> (16 <= List.length t)%nat.
Proof.
  intros N H. destruct nt as [n tb]. cbn [fst] in N. unfold dict_val in H. cbn [map] in H. unfold table_val at 1 in H. cbn [fst snd] in H.
  destruct (obj_len _ _ _ _ H) as (t1 & H1 & L1). destruct (obj_len _ _ _ _ H1) as (t2 & H2 & L2).
  assert (List.length n <> 0)%nat by (destruct n; [congruence|discriminate]).
  assert (L : List.length w_fields = 6%nat) by reflexivity.
  assert (2 <= List.length t2)%nat; [|lia].
  inversion H2; subst; cbn [List.length]; rewrite app_length; cbn [List.length]; lia.
Qed.

(** ** reading *)
Lemma add_new m n t : (forall k, In k (map fst m) -> same_name n k = false) -> add_table m n t = m ++ [(n, [t])].
Proof.
  induction m as [|[k l] r IH]; intros H; [reflexivity|]. cbn [add_table app].
  rewrite (H k (or_introl eq_refl)). f_equal. apply IH. intros x I. apply H. right. exact I.
Qed.
Lemma add_known m1 n t m2 : (forall k, In k (map fst m1) -> same_name n k = false) -> same_info t t = true ->
  add_table (m1 ++ (n, [t]) :: m2) n t = m1 ++ (n, [t]) :: m2.
Proof.
  induction m1 as [|[k l] r IH]; intros H S; cbn [app add_table].
  - rewrite same_name_refl. cbn [rev app]. rewrite S. reflexivity.
  - rewrite (H k (or_introl eq_refl)). f_equal. apply IH; [|exact S]. intros x I. apply H. right. exact I.
Qed.
Lemma same_name_sym a b : same_name a b = same_name b a.
Proof. unfold same_name. destruct (list_eq_dec _ _ _), (list_eq_dec _ _ _); congruence. Qed.
Definition known_as (ts : list (list Z * table)) : list (list Z * list table) := map (fun nt => (fst nt, [snd nt])) ts.
Definition back_nt (nt : list Z * table) : Prop := create_node (table_node (fst nt) (snd nt)) = Some (snd nt) /\ same_info (snd nt) (snd nt) = true.
Lemma apart_app a n b : apart_names (a ++ n :: b) -> forall k, In k a -> same_name n k = false.
Proof.
  induction a as [|x a IH]; intros H k I; [destruct I|]. cbn [app apart_names] in H. destruct H as [H1 H2].
  destruct I as [<-|I]; [|apply IH; assumption]. rewrite same_name_sym. apply Forall_app in H1 as [_ H1]. inversion H1; subst. assumption.
Qed.
Lemma fst_known ts : map fst (known_as ts) = map fst ts.
Proof. induction ts as [|x r IH]; cbn; [reflexivity|]. rewrite <- IH. reflexivity. Qed.
Lemma read_new : forall ts pre, apart_names (map fst (pre ++ ts)) -> Forall back_nt ts ->
  add_nodes (known_as pre) (map (fun nt => table_node (fst nt) (snd nt)) ts) = known_as (pre ++ ts).
Proof.
  induction ts as [|nt ts IH]; intros pre A B; [rewrite app_nil_r; reflexivity|].
  inversion B as [|? ? [B1 _] B']; subst. cbn [map add_nodes]. rewrite B1. cbn [table_node jkey].
  rewrite add_new.
  - replace (known_as pre ++ [(fst nt, [snd nt])]) with (known_as (pre ++ [nt])) by (unfold known_as; rewrite map_app; reflexivity).
    rewrite IH; [rewrite <- app_assoc; reflexivity|rewrite <- app_assoc; exact A|exact B'].
  - rewrite fst_known. rewrite map_app in A. cbn [map] in A. apply (apart_app _ _ _ A).
Qed.
Lemma read_again : forall ts pre, apart_names (map fst (pre ++ ts)) -> Forall back_nt ts ->
  add_nodes (known_as (pre ++ ts)) (map (fun nt => table_node (fst nt) (snd nt)) ts) = known_as (pre ++ ts).
Proof.
  induction ts as [|nt ts IH]; intros pre A B; [reflexivity|].
  inversion B as [|? ? [B1 B2] B']; subst. cbn [map add_nodes]. rewrite B1. cbn [table_node jkey].
  unfold known_as at 1. rewrite map_app. cbn [map]. fold (known_as pre) (known_as ts).
  rewrite add_known; [|rewrite fst_known; rewrite map_app in A; apply (apart_app _ _ _ A)|exact B2].
  replace (known_as pre ++ (fst nt, [snd nt]) :: known_as ts) with (known_as ((pre ++ [nt]) ++ ts))
    by (unfold known_as; rewrite !map_app, <- app_assoc; reflexivity).
  replace (pre ++ nt :: ts) with ((pre ++ [nt]) ++ ts) in * by (rewrite <- app_assoc; reflexivity).
  apply IH; assumption.
Qed.

Lemma dict_read ts : Forall fine_nt ts -> Forall back_nt ts -> apart_names (map fst ts) ->
  exists txt, dict_text ts = WText txt /\
    (Z.of_nat (List.length txt) < 2 ^ 31 -> forall d, (List.length txt <= d)%nat ->
      read_dict d txt [] = Some (known_as ts) /\ read_dict d txt (known_as ts) = Some (known_as ts)).
Proof.
  intros F B A. destruct (dict_value ts F) as (R & SH & M).
  destruct (C52_partial false (dict_val ts) (dict_node ts) Logic.I R SH M) as (t & E & J & L).
  exists t. split; [exact E|]. intros S d D. specialize (L S d D). unfold read_dict. rewrite L. cbn [dict_node jkids].
  rewrite (read_new ts [] A B : add_nodes [] _ = _), (read_again ts [] A B : add_nodes (known_as ts) _ = _).
  destruct ts as [|nt ts]; [destruct (_ <? _)%nat; split; reflexivity|].
  replace (List.length t <? 16)%nat with false; [split; reflexivity|].
  symmetry. apply Nat.ltb_ge. apply (dict_len nt ts t); [|exact J]. inversion F as [|? ? ((N & _) & _) _]; subst. exact N.
Qed.

(** ** versions *)
Lemma same_unit_eq u v : same_unit u v = true -> u = v.
Proof.
  destruct u as [n [s l c o] d i y], v as [n' [s' l' c' o'] d' i' y']. unfold same_unit. cbn [f_name f_at fstyle flen fcount foff f_dot f_idx f_only].
  destruct (list_eq_dec _ _ _) as [->|]; [|discriminate]. rewrite !andb_true_iff. intros (((((((_ & A) & B) & C) & D) & E) & F) & G).
  apply Bool.eqb_prop in F, G. apply Nat.eqb_eq in B, C, D. apply Z.eqb_eq in A, E. subst. reflexivity.
Qed.
Lemma same_info_fields x t : same_info x t = true -> fields_of x = fields_of t.
Proof.
  unfold same_info, fields_of. intros H. apply andb_true_iff in H as [H1 H2]. apply Nat.eqb_eq in H1. rewrite <- H1.
  revert H2. generalize (List.length (t_fields x)) as n. clear H1. intros n. generalize 0%nat as i. induction n as [|n IH]; intros i H; [reflexivity|].
  cbn [same_from] in H. cbn [fields_from]. destruct (field_at x i) as [u|]; [|discriminate]. destruct (field_at t i) as [v|]; [|discriminate].
  apply andb_true_iff in H as [A B]. rewrite (same_unit_eq _ _ A), (IH _ B). reflexivity.
Qed.
Lemma same_name_trans a b c : same_name a b = true -> same_name b c = same_name a c.
Proof. intros H. apply same_name_lower in H. unfold same_name. rewrite H. reflexivity. Qed.
Lemma latest_add m n t : forall name,
  if same_name name n then exists t', latest (add_table m n t) name = Some t' /\ fields_of t' = fields_of t
  else latest (add_table m n t) name = latest m name.
Proof.
  intros name. unfold latest. induction m as [|[k l] r IH].
  - cbn [add_table find fst]. destruct (same_name name n); [|reflexivity]. exists t. split; reflexivity.
  - cbn [add_table]. destruct (same_name n k) eqn:E; cbn [find fst].
    + destruct (same_name name n) eqn:E1.
      * rewrite <- (same_name_trans _ _ k E1), E.
        destruct (rev l) as [|x l'] eqn:R.
        -- exists t. split; reflexivity.
        -- destruct (same_info x t) eqn:S.
           ++ exists x. rewrite R. split; [reflexivity|]. apply same_info_fields. exact S.
           ++ exists t. rewrite rev_app_distr. split; reflexivity.
      * replace (same_name name k) with false; [reflexivity|].
        symmetry. destruct (same_name name k) eqn:E3; [|reflexivity].
        rewrite same_name_sym in E3, E. rewrite (same_name_trans _ _ n E3) in E1. congruence.
    + destruct (same_name name k) eqn:E2; [|exact IH].
      destruct (same_name name n) eqn:E1; [|reflexivity].
      rewrite same_name_sym in E1. rewrite (same_name_trans _ _ k E1) in E2. congruence.
Qed.
Lemma latest_nodes : forall ts m name, Forall back_nt ts ->
  match find (fun nt => same_name name (fst nt)) (rev ts) with
  | Some nt => exists t', latest (add_nodes m (map (fun nt => table_node (fst nt) (snd nt)) ts)) name = Some t' /\ fields_of t' = fields_of (snd nt)
  | None => latest (add_nodes m (map (fun nt => table_node (fst nt) (snd nt)) ts)) name = latest m name
  end.
Proof.
  induction ts as [|nt ts IH]; intros m name B; [reflexivity|].
  inversion B as [|? ? [B1 _] B']; subst. cbn [map add_nodes]. rewrite B1. cbn [table_node jkey rev].
  specialize (IH (add_table m (fst nt) (snd nt)) name B').
  assert (FA : forall A (P : A -> bool) a b, find P (a ++ b) = match find P a with Some x => Some x | None => find P b end).
  { clear. intros A P. induction a as [|x a IH]; intros b; [reflexivity|]. cbn. destruct (P x); [reflexivity|apply IH]. }
  rewrite FA. destruct (find _ (rev ts)); [exact IH|]. cbn [find].
  pose proof (latest_add m (fst nt) (snd nt) name) as L. rewrite IH. destruct (same_name name (fst nt)); exact L.
Qed.
Lemma dict_versions ts m : Forall fine_nt ts -> Forall back_nt ts ->
  exists txt, dict_text ts = WText txt /\
    (Z.of_nat (List.length txt) < 2 ^ 31 -> forall d, (List.length txt <= d)%nat ->
      exists m', read_dict d txt m = Some m' /\
        forall name, match find (fun nt => same_name name (fst nt)) (rev ts) with
                     | Some nt => exists t', latest m' name = Some t' /\ fields_of t' = fields_of (snd nt)
                     | None => latest m' name = latest m name
                     end).
Proof.
  intros F B. destruct (dict_value ts F) as (R & SH & M).
  destruct (C52_partial false (dict_val ts) (dict_node ts) Logic.I R SH M) as (t & E & J & L).
  exists t. split; [exact E|]. intros S d D. specialize (L S d D). unfold read_dict. rewrite L. cbn [dict_node jkids].
  exists (add_nodes m (map (fun nt => table_node (fst nt) (snd nt)) ts)).
  split; [|intros name; apply latest_nodes; exact B].
  destruct ts as [|nt ts]; [destruct (_ <? _)%nat; reflexivity|].
  replace (List.length t <? 16)%nat with false; [reflexivity|].
  symmetry. apply Nat.ltb_ge. apply (dict_len nt ts t); [|exact J]. inversion F as [|? ? ((N & _) & _) _]; subst. exact N.
Qed.
