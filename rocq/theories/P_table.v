(** Properties of tables: C37 (record layout), C38 (conversion), C46 (special fields). *)
From Verif Require Import Base S_server S_map S_table M_dynamic M_table L_map L_incrzip L_table L_convert.
From Coq Require Import ZifyBool ZifyNat Permutation String.
Local Open Scope list_scope.
Local Open Scope Z_scope.

(** ** C37 *)

(** Every table whose lines need at most 65536 bytes in total has exactly the fields of the
    layout, in disjoint ranges inside the record. *)
Theorem C37_fields_apart_partial : forall ds t,
  create ds = Some t -> total ds <= 65536 ->
  t_size t = total ds /\
  List.length (t_fields t) = List.length (layout ds) /\
  (forall x, In x (layout ds) -> exists i f, field_at t i = Some f /\ shows f x) /\
  (forall i, (i < List.length (t_fields t))%nat -> exists f x, field_at t i = Some f /\ In x (layout ds) /\ shows f x) /\
  (forall i f, field_at t i = Some f -> (fst (range f) + snd (range f) <= Z.to_nat (t_size t))%nat) /\
  (forall i j f g, field_at t i = Some f -> field_at t j = Some g -> i <> j -> apart (range f) (range g)).
Proof.
  intros ds t C T. destruct (create_inv ds t C T) as (I & _).
  split; [apply (i_size _ _ I)|]. split; [apply (layout_length _ _ I)|]. split; [|split; [|split]].
  - intros [d o] H. destruct (tinv_place _ _ _ I H) as (i & k & p & A & B & E). exists i, (make_unit d o).
    split; [unfold field_at; rewrite A; exact E|apply (make_shows ds); assumption].
  - intros i Hi. destruct (out_fields _ _ I) as (fos & _ & L & F). specialize (F i).
    destruct (nth_error fos i) as [f|] eqn:E; [|apply nth_error_None in E; lia].
    symmetry in F. destruct (field_at_place _ _ _ _ I T F) as (x & _ & _ & A & B & _). exists f, x. repeat split; assumption || apply B.
  - intros i f H. apply (fields_inside ds t i f I T H).
  - intros i j f g. apply (fields_apart ds t i j f g I T).
Qed.

(** Storing a number in an element of a field of 1, 2, 4 or 8 bytes: it reads back reduced to the
    width, and no other element of any field changes. *)
Theorem C37_store_partial : forall ds t i f k rec v,
  create ds = Some t -> total ds <= 65536 ->
  field_at t i = Some f -> (k < f_count f)%nat -> int_len (f_len f) = true -> Z.of_nat (List.length rec) = t_size t ->
  exists rec', fset (f_at f) rec v k = Some rec' /\ List.length rec' = List.length rec /\
    fget_uint (f_at f) rec' k = Some (v mod 2 ^ (8 * Z.of_nat (f_len f))) /\
    fget_int (f_at f) rec' k = Some (to_s (8 * Z.of_nat (f_len f)) v) /\
    (forall j g k', field_at t j = Some g -> (k' < f_count g)%nat -> (j, k') <> (i, k) ->
       bytes_at rec' (f_off g + k' * f_len g) (f_len g) = bytes_at rec (f_off g + k' * f_len g) (f_len g)).
Proof.
  intros ds t i f k rec v C T Hf Hk IL Lr. destruct (create_inv ds t C T) as (I & Ps).
  pose proof (fields_inside ds t i f I T Hf) as IN. unfold range in IN. cbn [fst snd] in IN.
  assert (B : (f_off f + k * f_len f + f_len f <= List.length rec)%nat) by nia.
  destruct (fset_spec (f_at f) rec v k IL B) as (rec' & E1 & E2 & E3 & E4).
  destruct (int_len_pow _ IL) as (PW & LV).
  exists rec'. split; [exact E1|]. split; [exact E2|]. split; [|split].
  - unfold fget_uint. rewrite IL, slice_bytes by lia. rewrite E3, le_val_bytes, PW. reflexivity.
  - unfold fget_int. rewrite IL, slice_bytes by lia. rewrite E3, le_val_bytes, PW, to_s_mod by lia. reflexivity.
  - intros j g k' Hg Hk' N.
    pose proof (fields_inside ds t j g I T Hg) as IN'. unfold range in IN'. cbn [fst snd] in IN'.
    apply bytes_ext; [nia|exact E2|]. intros x Hx. apply E4.
    destruct (Nat.eq_dec j i) as [->|NJ].
    + rewrite Hf in Hg. injection Hg as <-. assert (k' <> k) by congruence. nia.
    + pose proof (fields_apart ds t j i g f I T Hg Hf NJ) as AP. unfold apart, range in AP. cbn [fst snd] in AP. nia.
Qed.

Definition def (n : string) (k len count : Z) : fdef := mkdef (bs n) k len count 0 false false.
Example C37_example :
  let ds := [def "time" K_MSEC 8 1; def "bad" 0 4 1; def "code" K_CHAR 6 2; def "vol" K_INT 2 3; def "CODE" K_CHAR 3 1] in
  match create ds with
  | Some t => total ds = 29 /\ List.length (layout ds) = 3%nat /\ map (fun x => snd x) (layout ds) = [0; 20; 26] /\
      match field_at t 2 with
      | Some f => fset (f_at f) (repeat 7 29) (-2) 1 = Some (repeat 7 22 ++ [254; 255] ++ repeat 7 5) /\ int_len (f_len f) = true
      | None => False
      end
  | None => False
  end.
Proof. vm_compute. repeat split. Qed.

(** Beyond 65536 bytes the offset wraps around: here the second field lies inside the first, and
    storing in it changes the first. *)
Theorem C37_overlap_refuted : exists ds t i j f g rec rec',
  create ds = Some t /\ field_at t i = Some f /\ field_at t j = Some g /\ i <> j /\ ~ apart (range f) (range g) /\
  Z.of_nat (List.length rec) = t_size t /\ fset (f_at g) rec 1 0 = Some rec' /\
  bytes_at rec' (f_off f) (f_len f) <> bytes_at rec (f_off f) (f_len f).
Proof.
  pose (fa := make_unit (def "a" K_CHAR 256 256) 0). pose (fb := make_unit (def "b" K_INT 4 1) 65536).
  exists [def "a" K_CHAR 256 256; def "b" K_INT 4 1], (mkt [fa; fb] [] [(bs "a", 1); (bs "b", 2)] 65540 0 0 []), 0%nat, 1%nat, fa, fb.
  exists (repeat 0 (Z.to_nat 65540)), (1 :: repeat 0 (Z.to_nat 65539)).
  split; [vm_compute; reflexivity|]. split; [reflexivity|]. split; [reflexivity|]. split; [lia|].
  split.
  { unfold apart, range. cbn [fst snd]. change (f_off fa) with 0%nat. change (f_off fb) with 0%nat.
    change (f_count fa) with (f_len fa). change (f_len fb) with 4%nat. change (f_count fb) with 1%nat.
    assert (X : Z.of_nat (f_len fa) = 256) by reflexivity. nia. }
  split; [cbn [t_size]; rewrite repeat_length; lia|]. split.
  - unfold fset, splice. change (int_len (f_len fb)) with true. cbn iota.
    replace (f_off fb + 0 * f_len fb)%nat with 0%nat by reflexivity.
    replace (Nat.leb _ _) with true by (symmetry; apply Nat.leb_le; rewrite repeat_length, le_bytes_length; change (f_len fb) with 4%nat; lia).
    reflexivity.
  - intros X. apply (f_equal (fun l => nth 0 l 0)) in X. rewrite !nth_bytes_at in X by (vm_compute; lia).
    change (f_off fa + 0)%nat with 0%nat in X. rewrite nth_repeat in X. discriminate.
Qed.

(** A float field of 2 bytes is accepted; storing its second element changes the next field. *)
Theorem C37_real_store_refuted : exists ds t i j f g rec rec' b,
  create ds = Some t /\ total ds <= 65536 /\ field_at t i = Some f /\ field_at t j = Some g /\ i <> j /\
  Z.of_nat (List.length rec) = t_size t /\ (1 < f_count f)%nat /\ fset_real (f_at f) rec b 1 = Some rec' /\
  bytes_at rec' (f_off g) (f_len g) <> bytes_at rec (f_off g) (f_len g).
Proof.
  pose (ds := [def "x" K_FLOAT 2 2; def "y" K_INT 8 1]).
  exists ds, (mkt [make_unit (def "x" K_FLOAT 2 2) 0; make_unit (def "y" K_INT 8 1) 4] [] [(bs "x", 1); (bs "y", 2)] 12 0 0 []).
  exists 0%nat, 1%nat, (make_unit (def "x" K_FLOAT 2 2) 0), (make_unit (def "y" K_INT 8 1) 4), (repeat 0 12),
    (repeat 0 8 ++ [1; 1; 0; 0]), (repeat 1 8).
  split; [vm_compute; reflexivity|]. split; [vm_compute; discriminate|]. split; [reflexivity|]. split; [reflexivity|].
  split; [lia|]. split; [reflexivity|]. split; [vm_compute; lia|]. split; [vm_compute; reflexivity|].
  vm_compute. discriminate.
Qed.

(** ** C46 *)
Definition has_unit (t : table) (p : Z) (x : fdef * Z) : Prop :=
  (exists k, In (k, p) (t_fields t)) /\ ~ In p (t_freed t) /\ exists f, unit_of (t_units t) p = Some f /\ shows f x.
Definition is_time (x : fdef * Z) : bool := time_kind (df_style (fst x)).

Record inv46 (ds : list fdef) (t : table) : Prop := {
  s_units : t_units t = map (fun x => make_unit (fst x) (snd x)) (layout ds);
  s_freed : t_freed t = [];
  s_ptrs : map snd (t_fields t) = ids (List.length (t_units t));
  s_time : (t_time t = 0 /\ find is_time (layout ds) = None) \/
           exists a x b, layout ds = a ++ x :: b /\ t_time t = Z.of_nat (List.length a) + 1 /\ find is_time (layout ds) = Some x;
  s_idx : (t_mindex t = 0 /\ find (fun x => df_idx (fst x)) (rev (layout ds)) = None) \/
           exists a x b, layout ds = a ++ x :: b /\ t_mindex t = Z.of_nat (List.length a) + 1 /\ find (fun x => df_idx (fst x)) (rev (layout ds)) = Some x;
  s_only : Forall2 (fun p x => exists a b, layout ds = a ++ x :: b /\ p = Z.of_nat (List.length a) + 1) (t_solely t) (filter (fun x => df_only (fst x)) (layout ds)) }.

Lemma distinct_snoc ds d : distinct_names (ds ++ [d]) -> distinct_names ds /\
  (good_def d = true -> forall e, In e ds -> good_def e = true -> same_name (df_name e) (df_name d) = false).
Proof.
  induction ds as [|e r IH]; intros H; cbn in *; [split; [trivial|intros _ e []]|].
  destruct H as (H1 & H2). destruct (IH H2) as (A & B). split.
  - split; [|exact A]. intros G x Hx. apply H1; [exact G|]. apply in_or_app. left. exact Hx.
  - intros G x [<-|Hx] Gx; [|apply B; assumption]. apply H1; [exact Gx| |exact G]. apply in_or_app. right. left. reflexivity.
Qed.
Lemma find_app {A} (P : A -> bool) a b : find P (a ++ b) = match find P a with Some x => Some x | None => find P b end.
Proof. induction a as [|x a IH]; [reflexivity|]. cbn. destruct (P x); [reflexivity|exact IH]. Qed.

Lemma inv46_add ds t d : tinv ds t -> inv46 ds t -> total (ds ++ [d]) <= 65536 -> distinct_names (ds ++ [d]) -> inv46 (ds ++ [d]) (add_def t d).
Proof.
  intros I0 V T DN. destruct (distinct_snoc _ _ DN) as (_ & DN2). pose proof I0 as [Sz _ M]. destruct V as [U F P TM IX ON].
  destruct (good_def d) eqn:G.
  2:{ rewrite add_def_bad by exact G. assert (E : layout (ds ++ [d]) = layout ds) by (unfold layout; rewrite places_snoc, G; reflexivity).
      constructor; rewrite ?E; assumption. }
  rewrite add_def_good by exact G.
  assert (EL : layout (ds ++ [d]) = layout ds ++ [(d, total ds)]).
  { unfold layout. rewrite places_snoc, G. f_equal. apply filter_all. intros [e o] He. unfold named. cbn [fst].
    destruct (places_in _ _ _ _ He) as (Ge & Ie & _). rewrite (DN2 eq_refl e Ie Ge). reflexivity. }
  assert (LU : List.length (t_units t) = List.length (layout ds)) by (rewrite U, map_length; reflexivity).
  assert (Pos : position (t_fields t) (df_name d) = None).
  { apply position_fresh. intros X. apply in_map_iff in X. destruct X as ([k p] & X1 & X2). cbn [fst] in X1.
    apply In_nth_error in X2. destruct X2 as (i & X2). destruct (tinv_at _ _ _ _ _ I0 X2) as ([e o] & Y1 & Y2 & _). cbn [fst] in Y2.
    destruct (places_in _ _ _ _ Y1) as (Ge & Ie & _). pose proof (DN2 eq_refl e Ie Ge) as Z0.
    assert (same_name (df_name e) (df_name d) = true) by (apply same_name_lower; unfold low in *; congruence). congruence. }
  unfold add_good. cbn [mspec]. rewrite Pos. set (p := Z.of_nat (List.length (t_units t)) + 1).
  assert (NEW : exists a b, layout ds ++ [(d, total ds)] = a ++ (d, total ds) :: b /\ p = Z.of_nat (List.length a) + 1).
  { exists (layout ds), []. split; [reflexivity|]. unfold p. rewrite LU. reflexivity. }
  assert (OLD : forall q x, (exists a b, layout ds = a ++ x :: b /\ q = Z.of_nat (List.length a) + 1) ->
     exists a b, layout ds ++ [(d, total ds)] = a ++ x :: b /\ q = Z.of_nat (List.length a) + 1).
  { intros q x (a & b & -> & ->). exists a, (b ++ [(d, total ds)]). rewrite <- app_assoc. split; reflexivity. }
  constructor; cbn [t_units t_freed t_fields t_time t_mindex t_solely]; rewrite ?EL.
  - rewrite map_app, U, Sz. reflexivity.
  - rewrite F. reflexivity.
  - rewrite map_app, P, app_length. unfold ids. cbn [List.length map snd]. rewrite Nat.add_1_r, seq_S, map_app. reflexivity.
  - assert (FE : find is_time (layout ds ++ [(d, total ds)]) = match find is_time (layout ds) with Some x => Some x | None => if time_kind (df_style d) then Some (d, total ds) else None end)
      by (rewrite find_app; reflexivity).
    rewrite FE. cbn [f_at fstyle make_unit].
    destruct TM as [(T0 & TN)|(a & x & b & A & B & C)].
    + rewrite T0, TN. cbn [Z.eqb andb]. destruct (time_kind (df_style d)); [right|left; split; reflexivity].
      destruct NEW as (a & b & N1 & N2). exists a, (d, total ds), b. repeat split; assumption.
    + rewrite C. replace (t_time t =? 0) with false by lia. cbn [andb]. right.
      destruct (OLD (t_time t) x) as (a' & b' & O1 & O2); [exists a, b; split; assumption|]. exists a', x, b'. repeat split; assumption.
  - cbn [f_idx make_unit]. rewrite rev_app_distr. cbn [rev app find fst].
    destruct (df_idx d).
    + right. destruct NEW as (a & b & N1 & N2). exists a, (d, total ds), b. repeat split; assumption.
    + destruct IX as [(T0 & TN)|(a & x & b & A & B & C)]; [left; split; assumption|right].
      destruct (OLD (t_mindex t) x) as (a' & b' & O1 & O2); [exists a, b; split; assumption|]. exists a', x, b'. repeat split; assumption.
  - cbn [f_only make_unit]. rewrite filter_app. cbn [filter fst].
    assert (ON' : Forall2 (fun p0 x => exists a b, layout ds ++ [(d, total ds)] = a ++ x :: b /\ p0 = Z.of_nat (List.length a) + 1) (t_solely t) (filter (fun x => df_only (fst x)) (layout ds))).
    { revert ON. clear - OLD. generalize (filter (fun x => df_only (fst x)) (layout ds)). generalize (t_solely t).
      induction 1; constructor; auto. }
    destruct (df_only d); [|rewrite app_nil_r; exact ON'].
    apply Forall2_app; [exact ON'|]. constructor; [exact NEW|constructor].
Qed.

(** When the names differ, a table's time field is the first of a time kind, its index field the
    time field or else the last one flagged, its uniqueness fields those flagged in order; all are
    live fields of the table. *)
Theorem C46_special_fields_partial : forall ds t,
  create ds = Some t -> total ds <= 65536 -> distinct_names ds ->
  match find is_time (layout ds) with
  | Some x => has_unit t (t_time t) x /\ t_mindex t = t_time t
  | None => t_time t = 0 /\
      match find (fun x => df_idx (fst x)) (rev (layout ds)) with
      | Some x => has_unit t (t_mindex t) x
      | None => t_mindex t = 0
      end
  end /\
  Forall2 (has_unit t) (t_solely t) (filter (fun x => df_only (fst x)) (layout ds)).
Proof.
  intros ds t C T DN.
  assert (X : forall l pre t0, tinv pre t0 -> inv46 pre t0 -> total (pre ++ l) <= 65536 -> distinct_names (pre ++ l) -> inv46 (pre ++ l) (fold_left add_def l t0)).
  { induction l as [|d r IH]; intros pre t0 I0 V T0 D0; cbn [fold_left].
    - rewrite app_nil_r. exact V.
    - replace (pre ++ d :: r) with ((pre ++ [d]) ++ r) in * by (rewrite <- app_assoc; reflexivity).
      assert (T1 : total (pre ++ [d]) <= 65536) by (rewrite total_app in T0; pose proof (total_pos r); lia).
      assert (D1 : distinct_names (pre ++ [d])).
      { revert D0. clear. generalize (pre ++ [d]). induction l as [|e q IH]; cbn; [trivial|]. intros (A & B). split; [|apply IH, B].
        intros G x Hx. apply A; [exact G|]. apply in_or_app. left. exact Hx. }
      apply IH; [apply tinv_add; assumption|apply inv46_add; assumption|exact T0|exact D0]. }
  specialize (X ds [] table0 tinv0). cbn [app] in X.
  assert (V0 : inv46 [] table0).
  { constructor; cbn; [reflexivity|reflexivity|reflexivity|left; split; reflexivity|left; split; reflexivity|constructor]. }
  specialize (X V0 T DN). clear V0.
  unfold create in C. set (t0 := fold_left add_def ds table0) in *. clearbody t0.
  destruct (t_size t0 =? 0); [discriminate|]. injection C as <-. destruct X as [U F P TM IX ON].
  assert (HU : forall p x, (exists a b, layout ds = a ++ x :: b /\ p = Z.of_nat (List.length a) + 1) ->
    has_unit (mkt (t_units t0) (t_freed t0) (t_fields t0) (to_u 32 (t_size t0)) (t_time t0) (if t_time t0 =? 0 then t_mindex t0 else t_time t0) (t_solely t0)) p x).
  { intros p x (a & b & E & ->). unfold has_unit. cbn [t_fields t_freed t_units]. split; [|split].
    - assert (I1 : In (Z.of_nat (List.length a) + 1) (map snd (t_fields t0))).
      { rewrite P. unfold ids. apply in_map_iff. exists (List.length a). split; [reflexivity|]. apply in_seq.
        rewrite U, map_length, E, app_length. cbn [List.length]. lia. }
      apply in_map_iff in I1. destruct I1 as ([k q] & E1 & E2). cbn in E1. subst q. exists k. exact E2.
    - rewrite F. intros [].
    - exists (make_unit (fst x) (snd x)). split.
      + unfold unit_of. replace (_ <=? 0) with false by lia. replace (Z.to_nat _) with (List.length a) by lia.
        rewrite U, E, map_app, nth_error_app2 by (rewrite map_length; lia). rewrite map_length, Nat.sub_diag. reflexivity.
      + destruct x as [d o]. apply (make_shows ds); [rewrite E; apply in_or_app; right; left; reflexivity|exact T]. }
  cbn [t_time t_mindex t_solely]. split.
  - destruct TM as [(T0 & ->)|(a & x & b & A & B & ->)].
    + split; [exact T0|]. rewrite T0. cbn [Z.eqb].
      destruct IX as [(I0 & ->)|(a & x & b & A & B & ->)]; [exact I0|]. rewrite T0 in HU. cbn [Z.eqb] in HU. apply HU. exists a, b. split; assumption.
    + split; [apply HU; exists a, b; split; assumption|]. replace (t_time t0 =? 0) with false by lia. reflexivity.
  - revert ON. clear - HU. generalize (filter (fun x => df_only (fst x)) (layout ds)). generalize (t_solely t0) at 1 3.
    induction 1; constructor; auto.
Qed.
Example C46_example :
  let ds := [mkdef (bs "code") K_CHAR 8 1 0 true true; def "date" K_DATE 4 1; mkdef (bs "tick") K_MSEC 8 1 0 true true] in
  total ds <= 65536 /\ distinct_names ds /\
  match create ds with Some t => t_time t = 2 /\ t_mindex t = 2 /\ t_solely t = [1; 3] | None => False end.
Proof.
  cbv zeta. split; [vm_compute; discriminate|]. split; [|vm_compute; repeat split].
  cbn [distinct_names]. repeat split; intros _ e He _; cbn in He; intuition; subst e; vm_compute; reflexivity.
Qed.

(** With the time field defined twice the table keeps a pointer to the field it has freed. *)
Theorem C46_repeated_name_refuted : exists ds t,
  create ds = Some t /\ total ds <= 65536 /\ In (t_time t) (t_freed t) /\ t_mindex t = t_time t /\ ~ (exists k, In (k, t_time t) (t_fields t)).
Proof.
  exists [def "time" K_MSEC 8 1; def "val" K_INT 4 1; def "Time" K_TSEC 4 1].
  eexists. split; [vm_compute; reflexivity|]. cbn [t_time t_freed t_mindex t_fields].
  split; [vm_compute; discriminate|]. split; [left; reflexivity|]. split; [reflexivity|].
  intros (k & [H|[H|[]]]); discriminate.
Qed.

(** ** C38 *)

(** A block of records is carried over field by field, for tables of at most 65536 bytes, target
    names shorter than 32 bytes and target floats of 4 or 8 bytes, when the tables differ visibly or
    their fields are in the same places. *)
Theorem C38_convert_partial : forall idate mktime fconv dsi dso tin tout n inp,
  create dsi = Some tin -> create dso = Some tout -> total dsi <= 65536 -> total dso <= 65536 ->
  plain_target dso -> differ dsi dso \/ aligned dsi dso ->
  (0 < n)%nat -> Z.of_nat (List.length inp) = Z.of_nat n * total dsi -> Z.of_nat n * total dsi < 2 ^ 31 -> Z.of_nat n * total dso < 2 ^ 31 ->
  exists out, convert idate mktime fconv tin tout inp (Z.of_nat n * t_size tout) = Some (Some out) /\
    Z.of_nat (List.length out) = Z.of_nat n * total dso /\
    forall r, (r < n)%nat ->
      carried dsi dso (bytes_at inp (r * Z.to_nat (total dsi)) (Z.to_nat (total dsi))) (bytes_at out (r * Z.to_nat (total dso)) (Z.to_nat (total dso))).
Proof.
  intros idate mktime fconv dsi dso tin tout n inp Ci Co Ti To PT DA Hn Li B1 B2.
  destruct (create_inv _ _ Ci Ti) as (Ii & Pi). destruct (create_inv _ _ Co To) as (Io & Po).
  assert (REC : forall n inp, Z.of_nat (List.length inp) = Z.of_nat n * total dsi ->
    exists out, convert_records idate mktime fconv n tin tout inp = Some out /\ Z.of_nat (List.length out) = Z.of_nat n * total dso /\
    forall r, (r < n)%nat ->
      carried dsi dso (bytes_at inp (r * Z.to_nat (total dsi)) (Z.to_nat (total dsi))) (bytes_at out (r * Z.to_nat (total dso)) (Z.to_nat (total dso)))).
  { clear n inp Hn Li B1 B2. induction n as [|n IH]; intros inp Li.
    - exists []. split; [reflexivity|]. split; [reflexivity|]. intros r Hr. lia.
    - pose proof (i_size _ _ Ii) as Si. pose proof (i_size _ _ Io) as So. rewrite Si in Pi. rewrite So in Po.
      set (ni := Z.to_nat (total dsi)) in *. set (no := Z.to_nat (total dso)) in *.
      destruct (convert_record_spec idate mktime fconv dsi dso tin tout (firstn ni inp) Ii Io Ti To PT DA) as (o & A & B & C).
      { rewrite firstn_length, Si. lia. }
      destruct (IH (skipn ni inp)) as (os & A' & B' & C'); [rewrite skipn_length; lia|].
      exists (o ++ os). cbn [convert_records]. rewrite Si. fold ni. rewrite A, A'. split; [reflexivity|].
      split; [rewrite app_length; lia|].
      assert (Lo : List.length o = no) by lia.
      intros [|r] Hr.
      + cbn [Nat.mul]. unfold bytes_at at 1 2. cbn [skipn].
        replace (firstn no (o ++ os)) with o; [exact C|]. rewrite <- Lo. symmetry. apply firstn_app_exact.
      + specialize (C' r ltac:(lia)).
        replace (bytes_at inp (S r * ni) ni) with (bytes_at (skipn ni inp) (r * ni) ni).
        2:{ unfold bytes_at. rewrite skipn_skipn'. f_equal. f_equal. lia. }
        replace (bytes_at (o ++ os) (S r * no) no) with (bytes_at os (r * no) no); [exact C'|].
        unfold bytes_at. f_equal. replace (S r * no)%nat with (r * no + List.length o)%nat by lia.
        rewrite <- skipn_skipn', skipn_app_exact. reflexivity. }
  destruct (REC n inp Li) as (out & A & B & C). exists out. split; [|split; assumption].
  pose proof (i_size _ _ Ii) as Si. pose proof (i_size _ _ Io) as So.
  change (2 ^ 31) with 2147483648 in *.
  unfold convert. rewrite Li, Si, So. rewrite Z.div_mul by lia.
  assert (n0 : Z.of_nat n < 2147483648) by nia.
  rewrite to_s_small by (change (2 ^ (32 - 1)) with 2147483648; lia).
  rewrite !to_u_small by (change (2 ^ 32) with 4294967296; nia).
  replace ((Z.of_nat n * total dsi =? 0) || (Z.of_nat n * total dso =? 0)) with false by (rewrite Si in Pi; rewrite So in Po; nia).
  rewrite !Z.eqb_refl. cbn [negb]. rewrite Nat2Z.id, A. reflexivity.
Qed.
Example C38_example :
  let dsi := [def "time" K_TSEC 4 1; def "name" K_CHAR 3 2; def "vol" K_INT 2 2] in
  let dso := [def "VOL" K_INT 8 1; def "name" K_CHAR 2 3; def "time" K_UINT 8 1; def "new" K_INT 4 1] in
  differ dsi dso /\ total dsi = 14 /\ total dso = 26 /\
  match create dsi, create dso with
  | Some ti, Some to =>
    convert (fun v => v) (fun v => v) (fun _ _ _ => 0) ti to [1; 2; 3; 4; 65; 66; 67; 68; 69; 70; 254; 255; 7; 0] 26
    = Some (Some ([254; 255; 255; 255; 255; 255; 255; 255; 65; 66; 68; 69; 0; 0; 1; 2; 3; 4; 0; 0; 0; 0; 0; 0; 0; 0]))
  | _, _ => False
  end.
Proof. cbv zeta. split; [left; vm_compute; discriminate|]. vm_compute. repeat split. Qed.
Example C38_plain_example : plain_target [def "VOL" K_INT 8 1; def "name" K_CHAR 2 3; def "price" K_FLOAT 8 1].
Proof. intros d o H. vm_compute in H. intuition; match goal with X : _ = (d, o) |- _ => injection X as <- <- end; cbn; try lia; try (intros; discriminate); auto. Qed.

(** The same fields in another order: the records are copied as they are, and the values change
    fields. *)
Theorem C38_reordered_refuted : exists dsi dso tin tout inp out,
  create dsi = Some tin /\ create dso = Some tout /\ plain_target dso /\
  (forall idate mktime fconv, convert idate mktime fconv tin tout inp (t_size tout) = Some (Some out)) /\
  Z.of_nat (List.length inp) = t_size tin /\ ~ carried dsi dso inp out.
Proof.
  exists [def "a" K_INT 4 1; def "b" K_INT 4 1], [def "b" K_INT 4 1; def "a" K_INT 4 1].
  eexists. eexists. exists [1; 0; 0; 0; 2; 0; 0; 0], [1; 0; 0; 0; 2; 0; 0; 0].
  split; [vm_compute; reflexivity|]. split; [vm_compute; reflexivity|].
  split. { intros d o H. vm_compute in H. intuition; match goal with X : _ = (d, o) |- _ => injection X as <- <- end; cbn; try lia; discriminate. }
  split; [intros; vm_compute; reflexivity|]. split; [reflexivity|].
  intros K. destruct (K (def "a" K_INT 4 1) 4) as (K1 & _); [right; left; reflexivity|].
  specialize (K1 (def "a" K_INT 4 1) 0 (or_introl eq_refl) eq_refl 0%nat ltac:(vm_compute; lia)). vm_compute in K1. discriminate.
Qed.
(** A renamed field: the new field is not zero but gets the old field's bytes. *)
Theorem C38_renamed_refuted : exists dsi dso tin tout inp out,
  create dsi = Some tin /\ create dso = Some tout /\ plain_target dso /\
  (forall idate mktime fconv, convert idate mktime fconv tin tout inp (t_size tout) = Some (Some out)) /\
  Z.of_nat (List.length inp) = t_size tin /\ ~ carried dsi dso inp out.
Proof.
  exists [def "a" K_INT 4 1; def "b" K_FLOAT 4 1], [def "a" K_INT 4 1; def "c" K_INT 4 1].
  eexists. eexists. exists [1; 0; 0; 0; 2; 0; 0; 0], [1; 0; 0; 0; 2; 0; 0; 0].
  split; [vm_compute; reflexivity|]. split; [vm_compute; reflexivity|].
  split. { intros d o H. vm_compute in H. intuition; match goal with X : _ = (d, o) |- _ => injection X as <- <- end; cbn; try lia; discriminate. }
  split; [intros; vm_compute; reflexivity|]. split; [reflexivity|].
  intros K. destruct (K (def "c" K_INT 4 1) 4) as (_ & K1); [right; left; reflexivity|].
  assert (H : forall d o, In (d, o) (layout [def "a" K_INT 4 1; def "b" K_FLOAT 4 1]) -> same_name (df_name d) (df_name (def "c" K_INT 4 1)) = false).
  { intros d o H. vm_compute in H. destruct H as [H|[H|[]]]; injection H as <- <-; reflexivity. }
  specialize (K1 H 0%nat ltac:(vm_compute; lia)). vm_compute in K1. discriminate.
Qed.
(** A name of 32 bytes: the target's stored name is cut, the source is not found, the value is lost. *)
Theorem C38_long_name_refuted : exists dsi dso tin tout inp out,
  create dsi = Some tin /\ create dso = Some tout /\ differ dsi dso /\
  (forall idate mktime fconv, convert idate mktime fconv tin tout inp (t_size tout) = Some (Some out)) /\
  Z.of_nat (List.length inp) = t_size tin /\ ~ carried dsi dso inp out.
Proof.
  pose (n := "abcdefghijklmnopqrstuvwxyz_12345"%string).
  exists [def n K_INT 4 1], [def n K_INT 4 1; def "b" K_INT 4 1].
  eexists. eexists. exists [1; 0; 0; 0], [0; 0; 0; 0; 0; 0; 0; 0].
  split; [vm_compute; reflexivity|]. split; [vm_compute; reflexivity|]. split; [left; vm_compute; discriminate|].
  split; [intros; vm_compute; reflexivity|]. split; [reflexivity|].
  intros K. destruct (K (def n K_INT 4 1) 0) as (K1 & _); [left; reflexivity|].
  specialize (K1 (def n K_INT 4 1) 0 (or_introl eq_refl) eq_refl 0%nat ltac:(vm_compute; lia)). vm_compute in K1. discriminate.
Qed.

Print Assumptions C37_fields_apart_partial.
Print Assumptions C37_store_partial.
Print Assumptions C37_overlap_refuted.
Print Assumptions C37_real_store_refuted.
Print Assumptions C46_special_fields_partial.
Print Assumptions C46_repeated_name_refuted.
Print Assumptions C38_convert_partial.
Print Assumptions C38_reordered_refuted.
Print Assumptions C38_renamed_refuted.
Print Assumptions C38_long_name_refuted.
