(** Lemmas on the model of subscriptions. *)
From Coq Require Import ZArith List Bool Lia ZifyBool ZifyNat Sorting.Permutation.
From Verif Require Import Base S_server M_server L_map S_sub M_sub.
Import ListNotations.
Open Scope Z_scope.

Arguments COMMA : simpl never.
Arguments DOT : simpl never.
Arguments STAR : simpl never.
Arguments Z.eqb : simpl never.

(** * strings *)
Lemma casecmp_same a b : casecmp a b = same a b.
Proof.
  unfold same. destruct (list_eq_dec Z.eq_dec (map lower a) (map lower b)) as [E|E].
  - now apply casecmp_lower.
  - destruct (casecmp a b) eqn:C; trivial. now apply casecmp_lower in C.
Qed.
Lemma same_iff a b : same a b = true <-> map lower a = map lower b.
Proof. unfold same. destruct (list_eq_dec Z.eq_dec (map lower a) (map lower b)); split; intros; congruence. Qed.
Lemma same_refl a : same a a = true.
Proof. now apply same_iff. Qed.
Lemma same_sym a b : same a b = same b a.
Proof. apply eq_true_iff_eq. rewrite !same_iff. split; congruence. Qed.
Lemma same_cong a b c : same a b = true -> same a c = same b c.
Proof. intros E. apply same_iff in E. apply eq_true_iff_eq. rewrite !same_iff. now rewrite E. Qed.
Lemma same_nil b : same [] b = match b with [] => true | _ => false end.
Proof. destruct b; reflexivity. Qed.
Lemma same_cons x a y b : same (x :: a) (y :: b) = (lower x =? lower y) && same a b.
Proof.
  apply eq_true_iff_eq. rewrite andb_true_iff, !same_iff. cbn. split.
  - intros [= E F]. split; [lia|trivial].
  - intros [E F]. f_equal; [lia|trivial].
Qed.
Lemma lower_sep c d : (d = COMMA \/ d = DOT \/ d = STAR) -> (lower c =? d) = (c =? d).
Proof. unfold lower, COMMA, DOT, STAR. intros. destruct ((65 <=? c) && (c <=? 90)) eqn:E; lia. Qed.
Lemma lower_lower c : lower (lower c) = lower c.
Proof. unfold lower. destruct ((65 <=? c) && (c <=? 90)) eqn:E; destruct ((65 <=? c + 32) && (c + 32 <=? 90)) eqn:F; try rewrite E; lia. Qed.
Lemma map_lower_lower l : map lower (map lower l) = map lower l.
Proof. rewrite map_map. apply map_ext. apply lower_lower. Qed.
Lemma same_lower_l a b : same (map lower a) b = same a b.
Proof. apply eq_true_iff_eq. rewrite !same_iff, map_lower_lower. tauto. Qed.
Lemma exist_one l c : exist_ch l [c] = has c l.
Proof. unfold exist_ch, has. induction l as [|x l IH]; cbn in *; trivial. rewrite IH. f_equal. rewrite orb_false_r. apply Z.eqb_sym. Qed.
Lemma exist_two l c d : exist_ch l [c; d] = has c l || has d l.
Proof.
  unfold exist_ch, has. induction l as [|x l IH]; cbn in *; trivial. rewrite IH.
  rewrite (Z.eqb_sym x c), (Z.eqb_sym x d). destruct (c =? x), (d =? x), (existsb (Z.eqb c) l); cbn; trivial.
Qed.
Lemma has_lower c l : (c = COMMA \/ c = DOT \/ c = STAR) -> has c (map lower l) = has c l.
Proof.
  intros C. unfold has. induction l as [|x l IH]; cbn; trivial. rewrite IH. f_equal.
  rewrite (Z.eqb_sym c (lower x)), (Z.eqb_sym c x). now apply lower_sep.
Qed.
Lemma parts_ne l : parts l <> [].
Proof. induction l as [|c t IH]; cbn; [discriminate|]. destruct (parts t); [discriminate|]. destruct (c =? COMMA); discriminate. Qed.
Lemma parts_nocomma e : has COMMA e = false -> parts e = [e].
Proof.
  induction e as [|c e IH]; cbn; trivial. unfold has in *. cbn [existsb]. intros H. apply orb_false_iff in H. destruct H as [H1 H2].
  rewrite (IH H2). rewrite Z.eqb_sym, H1. reflexivity.
Qed.
Lemma parts_app e r : has COMMA e = false -> parts (e ++ COMMA :: r) = e :: parts r.
Proof.
  induction e as [|c e IH]; cbn [app].
  - intros _. cbn [parts]. destruct (parts r) eqn:P; [now apply parts_ne in P|]. now rewrite Z.eqb_refl.
  - unfold has in *. cbn [existsb]. intros H. apply orb_false_iff in H. destruct H as [H1 H2].
    cbn [parts]. rewrite (IH H2). now rewrite Z.eqb_sym, H1.
Qed.
Lemma parts_lower l : parts (map lower l) = map (map lower) (parts l).
Proof.
  induction l as [|c t IH]; cbn; trivial. rewrite IH. destruct (parts t); cbn; trivial.
  rewrite lower_sep by tauto. destruct (c =? COMMA); reflexivity.
Qed.
Lemma before_lower l : before_dot (map lower l) = map lower (before_dot l).
Proof. induction l as [|c t IH]; cbn; trivial. rewrite lower_sep by tauto. destruct (c =? DOT); cbn; congruence. Qed.
Lemma after_lower l : after_dot (map lower l) = map lower (after_dot l).
Proof. induction l as [|c t IH]; cbn; trivial. rewrite lower_sep by tauto. destruct (c =? DOT); cbn; congruence. Qed.
Lemma name_covers_lower h e s : name_covers h (map lower e) s = name_covers h e s.
Proof.
  destruct e as [|c e]; trivial. unfold name_covers. cbn [map]. change (lower c :: map lower e) with (map lower (c :: e)).
  destruct h; [|apply same_lower_l]. unfold begins. rewrite same_lower_l, map_length. reflexivity.
Qed.
Lemma names_cover_lower h p s : names_cover h (map lower p) s = names_cover h p s.
Proof.
  unfold names_cover. rewrite parts_lower. induction (parts p) as [|e l IH]; cbn; trivial. now rewrite name_covers_lower, IH.
Qed.
Lemma side_covers_lower h p s : side_covers h (map lower p) s = side_covers h p s.
Proof. unfold side_covers. now rewrite same_lower_l, names_cover_lower. Qed.
Lemma covers_lower h p s : covers h (map lower p) s = covers h p s.
Proof.
  unfold covers. rewrite !same_lower_l, has_lower, before_lower, after_lower, !side_covers_lower, names_cover_lower by tauto. reflexivity.
Qed.

(** * comparing with a list of names *)
Lemma ncasecmp_begins e : e <> [] -> forall a r i, ncasecmp a (e ++ r) i (i + Z.of_nat (List.length e) - 1) = begins e a.
Proof.
  induction e as [|y e IH]; [congruence|]. intros _ a r i. destruct a as [|x a].
  - reflexivity.
  - unfold begins. cbn [app ncasecmp List.length firstn]. rewrite same_cons. rewrite (Z.eqb_sym (lower y)). f_equal.
    destruct e as [|z e].
    + cbn [List.length firstn]. rewrite same_refl. replace (_ <=? i) with true by lia. reflexivity.
    + replace (_ <=? i) with false by (cbn [List.length]; lia).
      replace (i + Z.of_nat (S (List.length (z :: e))) - 1) with (i + 1 + Z.of_nat (List.length (z :: e)) - 1) by lia.
      now rewrite IH.
Qed.
Lemma begins_strict e a : begins e a && (Z.of_nat (List.length a) =? Z.of_nat (List.length e)) = same e a.
Proof.
  unfold begins. destruct (Z.of_nat (List.length a) =? Z.of_nat (List.length e)) eqn:E.
  - rewrite andb_true_r. rewrite firstn_all2 by lia. reflexivity.
  - rewrite andb_false_r. symmetry. apply not_true_is_false. intros C. apply same_iff in C.
    apply (f_equal (@List.length Z)) in C. rewrite !map_length in C. lia.
Qed.
Lemma sub_hit_covers strict sub e r : has COMMA sub = false -> (r = [] -> e <> []) -> (r <> [] -> exists t, r = COMMA :: t) ->
  sub_hit strict sub (e ++ r) (Z.of_nat (List.length e)) = name_covers (negb strict) e sub.
Proof.
  intros C N R. unfold sub_hit. destruct e as [|c e].
  - cbn [app List.length name_covers]. destruct r as [|x r]; [now specialize (N eq_refl)|].
    destruct (R ltac:(discriminate)) as (t & E). injection E as -> ->.
    destruct sub as [|y sub]; [reflexivity|]. unfold has in C. cbn [existsb] in C. apply orb_false_iff in C. destruct C as [C _].
    cbn [ncasecmp]. rewrite (Z.eqb_sym (lower y)). change (lower COMMA) with COMMA. rewrite Z.eqb_sym, lower_sep by tauto.
    rewrite Z.eqb_sym, C. reflexivity.
  - pose proof (ncasecmp_begins (c :: e) ltac:(discriminate) sub r 1) as B.
    replace (1 + Z.of_nat (List.length (c :: e)) - 1) with (Z.of_nat (List.length (c :: e))) in B by lia.
    rewrite B. destruct strict; cbn [negb name_covers].
    + apply begins_strict.
    + apply andb_true_r.
Qed.
Lemma subcmp_go_covers strict sub : has COMMA sub = false -> forall rest e count, has COMMA e = false ->
  (match subcmp_go strict sub (e ++ rest) (Z.of_nat (List.length e)) rest count with Some _ => true | None => false end)
  = existsb (fun x => name_covers (negb strict) x sub) (parts (e ++ rest)).
Proof.
  intros C. induction rest as [|c r IH]; intros e count E.
  - cbn [subcmp_go]. destruct e as [|x e].
    + reflexivity.
    + replace (0 <? Z.of_nat (List.length (x :: e))) with true by (cbn [List.length]; lia).
      rewrite sub_hit_covers by (trivial; congruence). rewrite app_nil_r, parts_nocomma by trivial. cbn [existsb].
      rewrite orb_false_r. now destruct (name_covers (negb strict) (x :: e) sub).
  - cbn [subcmp_go]. destruct (c =? COMMA) eqn:K.
    + apply Z.eqb_eq in K. subst c. rewrite sub_hit_covers; trivial; try discriminate; [|eauto].
      rewrite parts_app by trivial. cbn [existsb].
      destruct (name_covers (negb strict) e sub); trivial. cbn [orb].
      apply (IH [] (count + 1) eq_refl).
    + specialize (IH (e ++ [c]) count). rewrite <- app_assoc in IH. cbn [app] in IH.
      rewrite app_length in IH. cbn [List.length] in IH.
      replace (Z.of_nat (List.length e) + 1) with (Z.of_nat (List.length e + 1)) by lia. apply IH.
      unfold has. rewrite existsb_app. unfold has in E. rewrite E. cbn. rewrite Z.eqb_sym, K. reflexivity.
Qed.
Lemma subcmp_covers strict sub s : has COMMA sub = false -> subcmp strict sub (Some s) = names_cover (negb strict) s sub.
Proof. intros C. exact (subcmp_go_covers strict sub C s [] 0 eq_refl). Qed.
Lemma subcmp_part strict sub s : has COMMA sub = false -> subcmp strict sub (sds_part s) = names_cover (negb strict) s sub.
Proof. intros C. destruct s as [|c s]; [reflexivity|]. now apply subcmp_covers. Qed.
Lemma side_ok_covers strict sub s : has COMMA sub = false -> side_ok strict sub (sds_part s) = side_covers (negb strict) s sub.
Proof.
  intros C. unfold side_ok, side_covers. rewrite subcmp_part by trivial. f_equal.
  destruct s as [|c s]; [reflexivity|]. cbn [sds_part is_star]. apply casecmp_same.
Qed.

(** * dividing at the dot *)
Lemma divide_spec cap : forall l one, (0 < cap) ->
  Z.of_nat (List.length (one ++ before_dot l)) < cap -> Z.of_nat (List.length (after_dot l)) < cap ->
  divide cap l one = Some (if has DOT l then (2, one ++ before_dot l, after_dot l) else (1, one ++ l, [])).
Proof.
  intros l. induction l as [|c t IH]; intros one P B A; cbn [divide].
  - cbn in B. rewrite app_nil_r in B. replace (_ <? cap) with true by lia. cbn. now rewrite app_nil_r.
  - cbn [before_dot after_dot] in *. unfold has. cbn [existsb]. rewrite (Z.eqb_sym DOT c). destruct (c =? DOT) eqn:E; cbn [orb].
    + rewrite app_nil_r in *. replace (_ <? cap) with true by lia. replace (_ <? cap) with true by lia. reflexivity.
    + rewrite app_length in B. cbn [List.length] in B. replace (_ <? cap) with true by lia.
      rewrite IH; trivial.
      * unfold has. destruct (existsb (Z.eqb DOT) t); rewrite <- app_assoc; reflexivity.
      * rewrite <- app_assoc, app_length. cbn [app List.length]. lia.
Qed.
Lemma divide_sds_spec : forall l one, has DOT l = true -> divide_sds l one = (sds_part (one ++ before_dot l), sds_part (after_dot l)).
Proof.
  induction l as [|c t IH]; intros one H; [discriminate|]. unfold has in H. cbn [existsb] in H. rewrite (Z.eqb_sym DOT c) in H.
  cbn [divide_sds before_dot after_dot]. destruct (c =? DOT) eqn:E; cbn [orb] in H.
  - now rewrite app_nil_r.
  - rewrite (IH _ H), <- app_assoc. reflexivity.
Qed.
Lemma has_split c l : has c l = true \/ has c l = false.
Proof. destruct (has c l); auto. Qed.
Lemma has_dot_split c l : has DOT l = true -> c <> DOT -> has c l = has c (before_dot l) || has c (after_dot l).
Proof.
  intros H N. induction l as [|x t IH]; [discriminate|]. unfold has in *. cbn [existsb before_dot after_dot] in *.
  rewrite (Z.eqb_sym DOT x) in H. destruct (x =? DOT) eqn:E; cbn [orb] in H.
  - replace (c =? x) with false by lia. reflexivity.
  - cbn [existsb]. rewrite (IH H). now rewrite orb_assoc.
Qed.
Lemma has_before c l : has c l = false -> has c (before_dot l) = false /\ has c (after_dot l) = false.
Proof.
  induction l as [|x t IH]; [auto|]. unfold has in *. cbn [existsb before_dot after_dot]. intros H. apply orb_false_iff in H.
  destruct H as [H1 H2]. destruct (x =? DOT); [auto|]. cbn [existsb]. rewrite H1. destruct (IH H2). auto.
Qed.

(** * a unit and the names its pattern covers *)
Definition of_key (k : str) (h : bool) (u : sunit) : Prop := set_type k h = Some (u_type u, u_keys u, u_sdbs u).
Lemma notice_covers k h u s : of_key k h u -> clear_pattern h k -> h || has STAR k || has COMMA k = true -> short_name s ->
  notice u s = Some (covers h k s).
Proof.
  intros O (CP & SIDES) M (C & B & A). unfold of_key, set_type in O. rewrite !casecmp_same in O. unfold covers, notice.
  destruct (has_before COMMA s C) as (CB & CA).
  destruct (same k [STAR]) eqn:E1; [injection O as T0 K0 S0; rewrite <- ?T0, <- ?K0, <- ?S0; reflexivity|].
  destruct (same k [STAR; DOT; STAR]) eqn:E2; [injection O as T0 K0 S0; rewrite <- ?T0, <- ?K0, <- ?S0; reflexivity|]. cbn [orb].
  rewrite !exist_one in O. destruct (has DOT k) eqn:D.
  - rewrite divide_sds_spec in O by trivial. cbn [app] in O.
    assert (DV : divide 128 s [] = Some (if has DOT s then (2, before_dot s, after_dot s) else (1, s, []))).
    { apply (divide_spec 128 s []); cbn [app]; lia. }
    assert (T : forall strict, match divide 128 s [] with
        | Some (n, k', s') => Some ((n =? 2) && side_ok strict k' (sds_part (before_dot k)) && side_ok strict s' (sds_part (after_dot k)))
        | None => None end =
        Some (has DOT s && side_covers (negb strict) (before_dot k) (before_dot s) && side_covers (negb strict) (after_dot k) (after_dot s))).
    { intros strict. rewrite DV. destruct (has DOT s); [|reflexivity]. rewrite !side_ok_covers by trivial. reflexivity. }
    destruct h.
    + injection O as T0 K0 S0; rewrite <- ?T0, <- ?K0, <- ?S0. apply (T false).
    + destruct (SIDES eq_refl eq_refl) as (NB & NA).
      assert (HC : has COMMA k = true).
      { destruct CP as [X|[X|[X|[X|X]]]]; trivial; try congruence.
        - rewrite X in M. exact M.
        - subst k. discriminate.
        - subst k. discriminate. }
      rewrite (has_dot_split COMMA k D) in HC by (unfold COMMA, DOT; lia).
      destruct (before_dot k) as [|b bs] eqn:EB; [congruence|]. destruct (after_dot k) as [|a as_] eqn:EA; [congruence|].
      cbn [sds_part exist_sds] in O. rewrite !exist_one in O. rewrite <- EB, <- EA in *.
      assert (X : Some (MUL_MUL, sds_part (before_dot k), sds_part (after_dot k)) = Some (u_type u, u_keys u, u_sdbs u)).
      { rewrite <- O, EB, EA. cbn [sds_part]. rewrite EB, EA in HC. destruct (has COMMA (b :: bs)); trivial. cbn [orb] in HC. now rewrite HC. }
      injection X as T0 K0 S0; rewrite <- ?T0, <- ?K0, <- ?S0. apply (T true).
  - injection O as T0 K0 S0; rewrite <- ?T0, <- ?K0, <- ?S0. destruct h; [now rewrite subcmp_covers|].
    destruct (has COMMA k) eqn:HC; [now rewrite subcmp_covers|].
    destruct CP as [X|[X|[X|[X|X]]]]; try congruence.
    + rewrite X in M. discriminate.
    + subst k. discriminate.
    + subst k. discriminate.
Qed.
Lemma names_one p s : has COMMA p = false -> p <> [] -> names_cover false p s = same p s.
Proof. intros C N. unfold names_cover. rewrite parts_nocomma by trivial. cbn. rewrite orb_false_r. destruct p; [congruence|reflexivity]. Qed.
Lemma same_split k s : has DOT k = true ->
  same k s = has DOT s && same (before_dot k) (before_dot s) && same (after_dot k) (after_dot s).
Proof.
  revert s. induction k as [|c k IH]; intros s H; [discriminate|]. unfold has in *. cbn [existsb] in H. rewrite Z.eqb_sym in H.
  destruct s as [|x s]; [reflexivity|]. rewrite same_cons. cbn [existsb before_dot after_dot]. rewrite (Z.eqb_sym DOT x).
  destruct (c =? DOT) eqn:E; destruct (x =? DOT) eqn:F; cbn [orb andb].
  - apply Z.eqb_eq in E, F. subst. rewrite Z.eqb_refl. reflexivity.
  - assert (L : (lower c =? lower x) = false).
    { apply Z.eqb_eq in E. subst c. change (lower DOT) with DOT. rewrite Z.eqb_sym, lower_sep by tauto. exact F. }
    rewrite L. cbn [andb]. rewrite same_nil. rewrite andb_false_r. reflexivity.
  - assert (L : (lower c =? lower x) = false).
    { apply Z.eqb_eq in F. subst x. change (lower DOT) with DOT. rewrite lower_sep by tauto. exact E. }
    rewrite L. reflexivity.
  - cbn [orb] in H. rewrite (IH _ H), same_cons. destruct (lower c =? lower x); cbn [andb]; trivial. now rewrite andb_false_r.
Qed.
Lemma has_same_star k l : same k l = true -> has STAR k = has STAR l.
Proof. intros E. apply same_iff in E. rewrite <- (has_lower STAR k), <- (has_lower STAR l) by tauto. now rewrite E. Qed.
Lemma one_covers k s : k <> [] -> has STAR k = false -> has COMMA k = false -> clear_pattern false k ->
  covers false k s = same k s.
Proof.
  intros N S C (_ & SIDES). unfold covers.
  destruct (same k [STAR]) eqn:E1; [apply has_same_star in E1; rewrite S in E1; discriminate|].
  destruct (same k [STAR; DOT; STAR]) eqn:E2; [apply has_same_star in E2; rewrite S in E2; discriminate|]. cbn [orb].
  destruct (has DOT k) eqn:D; [|now apply names_one].
  destruct (SIDES eq_refl eq_refl) as (NB & NA). destruct (has_before COMMA k C) as (CB & CA). destruct (has_before STAR k S) as (SB & SA).
  rewrite same_split by trivial. unfold side_covers. rewrite !names_one by trivial.
  destruct (same (before_dot k) [STAR]) eqn:E3; [apply has_same_star in E3; rewrite SB in E3; discriminate|].
  destruct (same (after_dot k) [STAR]) eqn:E4; [apply has_same_star in E4; rewrite SA in E4; discriminate|]. reflexivity.
Qed.

(** * the maps *)
Definition flat1 (H : str -> bool) (e : str * sunit) : list asub :=
  map (fun c => (c, H (map lower (fst e)), map lower (fst e))) (u_msgs (snd e)).
Definition flat (H : str -> bool) (m : smap) : list asub := flat_map (flat1 H) m.
Definition lkeys (m : smap) : list str := map (fun e => map lower (fst e)) m.
Definition entry_ok (P : str -> sunit -> Prop) (e : str * sunit) : Prop :=
  NoDup (u_msgs (snd e)) /\ P (fst e) (snd e).
Definition map_ok (P : str -> sunit -> Prop) (m : smap) : Prop := NoDup (lkeys m) /\ Forall (entry_ok P) m.

Lemma find_unit_some m k u : find_unit m k = Some u -> exists k', In (k', u) m /\ same k k' = true.
Proof.
  induction m as [|[k' u'] m IH]; cbn; [discriminate|]. rewrite casecmp_same. destruct (same k k') eqn:E.
  - intros [= ->]. exists k'. auto.
  - intros F. destruct (IH F) as (q & I & Q). eauto.
Qed.
Lemma find_unit_none m k : find_unit m k = None -> ~ In (map lower k) (lkeys m).
Proof.
  induction m as [|[k' u'] m IH]; cbn; [auto|]. rewrite casecmp_same. destruct (same k k') eqn:E; [discriminate|].
  intros F [I|I]; [|now apply IH]. assert (same k k' = true) by (now apply same_iff). congruence.
Qed.
Lemma find_unit_in m k k' u : NoDup (lkeys m) -> In (k', u) m -> same k k' = true -> find_unit m k = Some u.
Proof.
  induction m as [|[q v] m IH]; cbn; [contradiction|]. intros ND I E. inversion ND as [|? ? A B]; subst.
  rewrite casecmp_same. destruct I as [[= -> ->]|I].
  - now rewrite E.
  - destruct (same k q) eqn:F; [|now apply IH]. exfalso. apply A. apply same_iff in E, F.
    replace (map lower q) with (map lower k'). { now apply (in_map (fun e => map lower (fst e)) m (k', u)). } congruence.
Qed.
Lemma in_flat H m c h p : NoDup (lkeys m) ->
  In (c, h, map lower p) (flat H m) <-> h = H (map lower p) /\ exists u, find_unit m p = Some u /\ In c (u_msgs u).
Proof.
  intros ND. unfold flat. rewrite in_flat_map. split.
  - intros ([k u] & I & J). unfold flat1 in J. apply in_map_iff in J. destruct J as (c' & E & J). cbn [fst snd] in *.
    injection E as -> E2 E3. rewrite <- E3. split; [now symmetry|]. exists u. split; trivial.
    eapply find_unit_in; eauto. now apply same_iff.
  - intros (-> & u & F & J). destruct (find_unit_some _ _ _ F) as (k & I & E). exists (k, u). split; trivial.
    unfold flat1. apply in_map_iff. exists c. cbn [fst snd]. split; trivial. apply same_iff in E. now rewrite <- E.
Qed.
Lemma put_none m k u : find_unit m k = None -> put_unit m k u = m ++ [(k, u)].
Proof.
  induction m as [|[q v] m IH]; cbn; trivial. destruct (casecmp k q); [discriminate|]. intros F. now rewrite IH.
Qed.
Lemma put_keys m k u v : find_unit m k = Some v -> lkeys (put_unit m k u) = lkeys m.
Proof.
  unfold lkeys. induction m as [|[q w] m IH]; cbn; [discriminate|]. destruct (casecmp k q); [reflexivity|]. intros F. cbn. now rewrite IH.
Qed.
Lemma put_flat H m k v c : find_unit m k = Some v ->
  Permutation (flat H (put_unit m k (mkunit (u_type v) (u_keys v) (u_sdbs v) (u_msgs v ++ [c]))))
    (flat H m ++ [(c, H (map lower k), map lower k)]).
Proof.
  induction m as [|[q w] m IH]; cbn [find_unit put_unit]; [discriminate|]. rewrite casecmp_same. destruct (same k q) eqn:E.
  - intros [= ->]. apply same_iff in E. unfold flat. cbn [flat_map]. unfold flat1 at 1 3. cbn [fst snd u_msgs]. rewrite map_app. cbn [map].
    rewrite <- !app_assoc. apply Permutation_app_head. rewrite E. apply Permutation_app_comm.
  - intros F. unfold flat in *. cbn [flat_map]. rewrite <- app_assoc. apply Permutation_app_head. now apply IH.
Qed.
Lemma put_entries P m k v u : Forall (entry_ok P) m -> find_unit m k = Some v ->
  (forall k', In (k', v) m -> entry_ok P (k', v) -> entry_ok P (k', u)) -> Forall (entry_ok P) (put_unit m k u).
Proof.
  induction m as [|[q w] m IH]; cbn [find_unit put_unit]; [discriminate|]. intros F. inversion F as [|? ? A B]; subst.
  destruct (casecmp k q).
  - intros [= ->] K. constructor; trivial. apply K; trivial. now left.
  - intros G K. constructor; trivial. apply IH; trivial. intros k' I. apply K. now right.
Qed.

Lemma existsb_in c l : existsb (Z.eqb c) l = true <-> In c l.
Proof. rewrite existsb_exists. split; [intros (x & I & E); apply Z.eqb_eq in E; now subst|intros I; exists c; split; trivial; apply Z.eqb_refl]. Qed.
Lemma NoDup_snoc (A : Type) (l : list A) a : NoDup l -> ~ In a l -> NoDup (l ++ [a]).
Proof.
  intros N I. apply (Permutation_NoDup (l := a :: l)); [apply Permutation_cons_append|]. now constructor.
Qed.

(** one subscription *)
Lemma sub_notice_spec H (P : str -> sunit -> Prop) m c p h :
  map_ok P m -> (forall k u l, P k u -> P k (mkunit (u_type u) (u_keys u) (u_sdbs u) l)) ->
  (exists t a b, set_type p h = Some (t, a, b) /\ forall l, P p (mkunit t a b l)) ->
  exists m' o, sub_notice m c p h = Some (m', o) /\ map_ok P m' /\
    ((o = 0 /\ m' = m /\ In (c, H (map lower p), map lower p) (flat H m)) \/
     (o = 1 /\ ~ In (c, H (map lower p), map lower p) (flat H m) /\
      Permutation (flat H m') (flat H m ++ [(c, H (map lower p), map lower p)]))).
Proof.
  intros (ND & FA) PM (t & a & b & ST & PN). unfold sub_notice. destruct (find_unit m p) as [u|] eqn:F.
  - destruct (existsb (Z.eqb c) (u_msgs u)) eqn:X.
    + exists m, 0. repeat split; trivial. left. repeat split; trivial. apply in_flat; trivial. split; trivial. exists u.
      split; trivial. now apply existsb_in.
    + assert (NI : ~ In c (u_msgs u)). { intros I. apply existsb_in in I. congruence. }
      eexists _, 1. split; [reflexivity|]. split.
      * split; [now rewrite (put_keys _ _ _ _ F)|]. eapply put_entries; [exact FA|exact F|]. intros k' _ (A & B). split; cbn [fst snd u_msgs] in *.
        -- now apply NoDup_snoc.
        -- now apply PM.
      * right. repeat split.
        -- intros I. apply in_flat in I; trivial. destruct I as (_ & u' & F' & I). rewrite F in F'. injection F' as <-. contradiction.
        -- now apply put_flat.
  - rewrite ST. eexists _, 1. split; [reflexivity|]. rewrite (put_none _ _ _ F). split.
    + split.
      * unfold lkeys. rewrite map_app. cbn [map fst]. apply NoDup_snoc; trivial. now apply find_unit_none.
      * apply Forall_app. split; trivial. constructor; [|constructor]. split; cbn; [|apply PN]. constructor; [auto|constructor].
    + right. repeat split.
      * intros I. apply in_flat in I; trivial. destruct I as (_ & u' & F' & _). congruence.
      * unfold flat. rewrite flat_map_app. cbn. reflexivity.
Qed.

(** giving up *)
Lemma filter_all A (f : A -> bool) l : (forall x, In x l -> f x = true) -> filter f l = l.
Proof. induction l as [|a l IH]; cbn; intros H; trivial. rewrite (H a) by auto. f_equal. apply IH. auto. Qed.
Lemma filter_none A (f : A -> bool) l : (forall x, In x l -> f x = false) -> filter f l = [].
Proof. induction l as [|a l IH]; cbn; intros H; trivial. rewrite (H a) by auto. apply IH. auto. Qed.
Lemma del_first_filter c l : NoDup l -> del_first c l = filter (fun x => negb (x =? c)) l.
Proof.
  induction l as [|x l IH]; cbn; trivial. intros N. inversion N as [|? ? A B]; subst. destruct (x =? c) eqn:E; cbn [negb].
  - symmetry. apply filter_all. intros y I. apply Z.eqb_eq in E. subst. destruct (Z.eqb_spec y c); trivial. congruence.
  - f_equal. now apply IH.
Qed.
Lemma filter_flat1 H c k u l : l = filter (fun x => negb (x =? c)) (u_msgs u) ->
  filter (fun a : asub => negb (fst (fst a) =? c)) (flat1 H (k, u)) =
  map (fun c' => (c', H (map lower k), map lower k)) l.
Proof.
  intros ->. unfold flat1. cbn [fst snd]. induction (u_msgs u) as [|x t IH]; cbn; trivial.
  destruct (x =? c); cbn; rewrite IH; reflexivity.
Qed.
Lemma filter_len A (f : A -> bool) l : (List.length (filter f l) <= List.length l)%nat.
Proof. induction l as [|a l IH]; cbn; trivial. destruct (f a); cbn; lia. Qed.
Lemma filter_neq_len (c : Z) l : NoDup l -> In c l -> (List.length (filter (fun x => negb (x =? c)%Z) l) + 1 = List.length l)%nat.
Proof.
  induction l as [|x l IH]; [contradiction|]. intros N I. inversion N as [|? ? A B]; subst. cbn. destruct (Z.eqb_spec x c) as [->|E]; cbn [negb].
  - rewrite filter_all; [lia|]. intros y J. destruct (Z.eqb_spec y c); trivial. congruence.
  - cbn. destruct I as [->|I]; [congruence|]. rewrite IH by trivial. reflexivity.
Qed.
Lemma filter_nodup A (f : A -> bool) l : NoDup l -> NoDup (filter f l).
Proof. induction l as [|a l IH]; cbn; intros N; trivial. inversion N as [|? ? X Y]; subst. destruct (f a); [|auto]. constructor; [|auto]. intros I. apply filter_In in I. tauto. Qed.

Lemma unsub_spec H (P : str -> sunit -> Prop) c : c <> -1 -> (forall k u l, P k u -> P k (mkunit (u_type u) (u_keys u) (u_sdbs u) l)) ->
  forall m n, Forall (entry_ok P) m -> NoDup (lkeys m) ->
  exists m' d, unsub_notice m c n = (m', n + Z.of_nat d) /\ map_ok P m' /\ (forall k, In k (lkeys m') -> In k (lkeys m)) /\
    flat H m' = drop_client c (flat H m) /\ (List.length (flat H m') + d = List.length (flat H m))%nat.
Proof.
  intros NC PM. induction m as [|[k u] m IH]; intros n F ND.
  - exists [], 0%nat. cbn. rewrite Z.add_0_r. repeat split; auto; constructor.
  - inversion F as [|? ? (A1 & A2) B]; subst. cbn [fst snd] in *. cbn [lkeys map fst] in ND. inversion ND as [|? ? N1 N2]; subst.
    cbn [unsub_notice]. replace (c =? -1) with false by lia.
    destruct (existsb (Z.eqb c) (u_msgs u)) eqn:X.
    + apply existsb_in in X. destruct (IH (n + 1) B N2) as (m' & d & E & (OK1 & OK2) & K & FL & LN). rewrite E.
      pose proof (del_first_filter c _ A1) as DF. pose proof (filter_neq_len c _ A1 X) as FL1.
      exists (match del_first c (u_msgs u) with [] => m' | _ => (k, mkunit (u_type u) (u_keys u) (u_sdbs u) (del_first c (u_msgs u))) :: m' end), (S d).
      assert (G : flat H (match del_first c (u_msgs u) with [] => m' | _ => (k, mkunit (u_type u) (u_keys u) (u_sdbs u) (del_first c (u_msgs u))) :: m' end)
                = map (fun c' => (c', H (map lower k), map lower k)) (del_first c (u_msgs u)) ++ flat H m').
      { destruct (del_first c (u_msgs u)); reflexivity. }
      split; [f_equal; lia|]. split; [|split; [|split]].
      * destruct (del_first c (u_msgs u)) as [|x l] eqn:Q; [split; trivial|]. split.
        -- cbn. constructor; [|trivial]. intros I. apply N1. now apply K.
        -- constructor; trivial. split; cbn; [rewrite DF; now apply filter_nodup|now apply PM].
      * intros q I. cbn. destruct (del_first c (u_msgs u)); [right; now apply K|]. cbn in I. destruct I as [I|I]; [now left|right; now apply K].
      * rewrite G, FL. unfold flat, drop_client. cbn [flat_map]. rewrite filter_app. apply (f_equal (fun l => l ++ _)). symmetry. exact (filter_flat1 H c k u _ DF).
      * rewrite G, app_length, map_length, DF. unfold flat. cbn [flat_map]. rewrite app_length. unfold flat1 at 2. rewrite map_length. cbn [snd].
        unfold flat, asub, str in *. lia.
    + destruct (IH n B N2) as (m' & d & E & (OK1 & OK2) & K & FL & LN). rewrite E.
      assert (NI : ~ In c (u_msgs u)). { intros I. apply existsb_in in I. congruence. }
      exists ((k, u) :: m'), d. split; [reflexivity|]. split; [|split; [|split]].
      * split; [|constructor; trivial; split; trivial]. cbn. constructor; trivial. intros I. apply N1. now apply K.
      * intros q I. cbn in *. destruct I as [I|I]; [now left|right; now apply K].
      * unfold flat, drop_client in *. cbn [flat_map]. rewrite filter_app, FL. apply (f_equal (fun l => l ++ _)). symmetry. refine (filter_flat1 H c k u (u_msgs u) _).
        symmetry. apply filter_all. intros x I. destruct (Z.eqb_spec x c); trivial. congruence.
      * unfold flat in *. cbn [flat_map]. rewrite !app_length. lia.
Qed.
Lemma unsub_all m n : fst (unsub_notice m (-1) n) = [].
Proof. revert n. induction m as [|[k u] m IH]; intros n; [reflexivity|]. cbn [unsub_notice]. change (-1 =? -1) with true. apply IH. Qed.

(** * histories *)
Definition one_P (k : str) (u : sunit) : Prop :=
  k <> [] /\ has STAR k = false /\ has COMMA k = false /\ clear_pattern false k.
Definition mul_P (H : str -> bool) (k : str) (u : sunit) : Prop :=
  of_key k (H (map lower k)) u /\ clear_pattern (H (map lower k)) k /\ H (map lower k) || has STAR k || has COMMA k = true.
Definition sinv (H : str -> bool) (x : scxt) (A : list asub) : Prop :=
  map_ok one_P (s_one x) /\ map_ok (mul_P H) (s_mul x) /\
  Permutation A (flat (fun _ => false) (s_one x) ++ flat H (s_mul x)).
Definition clear_req (H : str -> bool) (r : sreq) : Prop :=
  match r with
  | RSub c h p => clear_pattern h p /\ (h = true \/ has STAR p = true \/ has COMMA p = true -> h = H (map lower p))
  | RUnsub _ => True
  | RGone _ => False
  end.

Lemma set_type_ok p h : p <> [] -> clear_pattern h p -> exists t a b, set_type p h = Some (t, a, b).
Proof.
  intros N (_ & S). unfold set_type. destruct (casecmp p [STAR]); [eauto|]. destruct (casecmp p [STAR; DOT; STAR]); [eauto|].
  rewrite !exist_one. destruct (has DOT p) eqn:D; [|eauto]. rewrite divide_sds_spec by trivial. destruct h; [eauto|].
  destruct (S eq_refl eq_refl) as (B & A). cbn [app]. destruct (before_dot p) as [|b q]; [congruence|]. destruct (after_dot p) as [|a r]; [congruence|].
  cbn [sds_part exist_sds]. destruct (exist_ch (b :: q) [COMMA]); [eauto|]. destruct (exist_ch (a :: r) [COMMA]); eauto.
Qed.
Lemma asub_exists c h p A : (forall a, In a A -> exists q, snd a = map lower q) ->
  existsb (asub_eqb (c, h, p)) A = true <-> In (c, h, map lower p) A.
Proof.
  intros L. rewrite existsb_exists. split.
  - intros ([[c' h'] q] & I & E). cbn in E. apply andb_true_iff in E. destruct E as [E S]. apply andb_true_iff in E. destruct E as [E F].
    apply Z.eqb_eq in E. apply eqb_prop in F. subst. apply same_iff in S. destruct (L _ I) as (z & Z). cbn in Z. subst q.
    rewrite map_lower_lower in S. now rewrite S.
  - intros I. exists (c, h, map lower p). split; trivial. cbn. rewrite Z.eqb_refl, eqb_reflx. cbn. apply same_iff. now rewrite map_lower_lower.
Qed.
Lemma flat_lower H m a : In a (flat H m) -> exists q, snd a = map lower q.
Proof.
  unfold flat. rewrite in_flat_map. intros ([k u] & _ & I). unfold flat1 in I. apply in_map_iff in I. destruct I as (c & <- & _).
  exists k. reflexivity.
Qed.
Lemma perm_len A (l m : list A) : Permutation l m -> List.length l = List.length m.
Proof. apply Permutation_length. Qed.
Lemma perm_filter A (f : A -> bool) l m : Permutation l m -> Permutation (filter f l) (filter f m).
Proof.
  induction 1; cbn; trivial.
  - destruct (f x); [now constructor|trivial].
  - destruct (f x), (f y); try reflexivity. constructor.
  - eapply perm_trans; eauto.
Qed.

Lemma force_sub A c h p : p <> [] ->
  in_force_step A (RSub c h p) = if existsb (asub_eqb (c, h, p)) A then A else A ++ [(c, h, map lower p)].
Proof. destruct p; [congruence|reflexivity]. Qed.
Lemma cxt_sub_ne x c h p : p <> [] -> cxt_sub x c h p =
    if h || exist_ch p [STAR; COMMA] then
      match sub_notice (s_mul x) c p h with Some (m, o) => Some (mkcxt (s_one x) m, o) | None => None end
    else
      match sub_notice (s_one x) c p h with Some (m, o) => Some (mkcxt m (s_mul x), o) | None => None end.
Proof. destruct p; [congruence|reflexivity]. Qed.
Ltac use_if X A :=
  match type of X with _ = ?b => repeat match goal with |- context [existsb ?f A] => replace (existsb f A) with b by (symmetry; exact X) end end.
Lemma sstep_inv H x A r : sinv H x A -> clear_req H r -> r <> RUnsub (-1) ->
  exists y, sreq_step x r = Some (y, answer A r) /\ sinv H y (in_force_step A r).
Proof.
  intros (I1 & I2 & PA) C NU.
  assert (LOW : forall a, In a A -> exists q, snd a = map lower q).
  { intros a I. apply (Permutation_in _ PA) in I. apply in_app_or in I. destruct I as [I|I]; eapply flat_lower; eauto. }
  destruct r as [c h p|c|c]; [|clear C|contradiction].
  - destruct C as (CP & HH). cbn [sreq_step].
    assert (NIL : {p = []} + {p <> []}) by (destruct p; [now left|right; discriminate]). destruct NIL as [->|NP].
    { exists x. split; [|split; trivial; split; trivial]. unfold cxt_sub, answer. cbn [in_force_step]. now rewrite Z.sub_diag. }
    unfold answer. rewrite (cxt_sub_ne x c h p NP), (force_sub A c h p NP).
    destruct (set_type_ok p h NP CP) as (t & ka & kb & ST). rewrite exist_two.
    destruct (h || (has STAR p || has COMMA p)) eqn:M.
    + assert (HE : h = H (map lower p)).
      { apply HH. apply orb_true_iff in M. destruct M as [M|M]; [auto|]. apply orb_true_iff in M. tauto. }
      destruct (sub_notice_spec H (mul_P H) (s_mul x) c p h I2) as (m' & o & E & OK & Q).
      { intros k u l (X & Y). split; trivial. }
      { exists t, ka, kb. split; trivial. intros l. split; [|split].
        - unfold of_key. rewrite <- HE. exact ST.
        - now rewrite <- HE.
        - rewrite <- HE, <- orb_assoc. exact M. }
      rewrite E. rewrite <- HE in Q.
      assert (NO1 : ~ In (c, h, map lower p) (flat (fun _ => false) (s_one x))).
      { intros I. apply in_flat in I; [|apply I1]. destruct I as (-> & u & F & _). destruct (find_unit_some _ _ _ F) as (k & I & S).
        destruct I1 as (_ & F1). rewrite Forall_forall in F1. destruct (F1 _ I) as (_ & _ & K1 & K2 & _). cbn [fst] in *.
        rewrite (has_same_star _ _ S), K1 in M. cbn [orb] in M.
        apply same_iff in S. rewrite <- (has_lower COMMA p), S, has_lower, K2 in M by tauto. discriminate. }
      destruct Q as [(-> & -> & I)|(-> & NI & PF)].
      * assert (X : existsb (asub_eqb (c, h, p)) A = true).
        { apply asub_exists; trivial. apply (Permutation_in _ (Permutation_sym PA)). apply in_or_app. now right. }
        use_if X A. exists (mkcxt (s_one x) (s_mul x)). split; [now rewrite Z.sub_diag|]. split; [trivial|split; trivial].
      * assert (X : existsb (asub_eqb (c, h, p)) A = false).
        { apply not_true_is_false. intros X. apply asub_exists in X; trivial. apply (Permutation_in _ PA) in X. apply in_app_or in X. tauto. }
        use_if X A. exists (mkcxt (s_one x) m'). split.
        -- f_equal. f_equal. rewrite app_length. cbn [List.length]. lia.
        -- split; [trivial|split; trivial]. cbn [s_one s_mul]. eapply perm_trans; [apply Permutation_app_tail; exact PA|].
           rewrite <- app_assoc. apply Permutation_app_head. now apply Permutation_sym.
    + apply orb_false_iff in M. destruct M as (-> & M). apply orb_false_iff in M. destruct M as (M1 & M2).
      destruct (sub_notice_spec (fun _ => false) one_P (s_one x) c p false I1) as (m' & o & E & OK & Q).
      { intros k u l X. exact X. }
      { exists t, ka, kb. split; trivial. intros l. split; [trivial|split; [trivial|split; trivial]]. }
      rewrite E. cbn beta in Q.
      assert (NO2 : ~ In (c, false, map lower p) (flat H (s_mul x))).
      { intros I. apply in_flat in I; [|apply I2]. destruct I as (HF & u & F & _). destruct (find_unit_some _ _ _ F) as (k & I & S).
        destruct I2 as (_ & F2). rewrite Forall_forall in F2. destruct (F2 _ I) as (_ & _ & _ & K). cbn [fst] in *.
        rewrite <- (has_same_star _ _ S), M1 in K. apply same_iff in S. rewrite <- S, <- HF in K. cbn [orb] in K.
        rewrite <- (has_lower COMMA k), <- S, has_lower, M2 in K by tauto. discriminate. }
      destruct Q as [(-> & -> & I)|(-> & NI & PF)].
      * assert (X : existsb (asub_eqb (c, false, p)) A = true).
        { apply asub_exists; trivial. apply (Permutation_in _ (Permutation_sym PA)). apply in_or_app. now left. }
        use_if X A. exists (mkcxt (s_one x) (s_mul x)). split; [now rewrite Z.sub_diag|]. split; [trivial|split; trivial].
      * assert (X : existsb (asub_eqb (c, false, p)) A = false).
        { apply not_true_is_false. intros X. apply asub_exists in X; trivial. apply (Permutation_in _ PA) in X. apply in_app_or in X. tauto. }
        use_if X A. exists (mkcxt m' (s_mul x)). split.
        -- f_equal. f_equal. rewrite app_length. cbn [List.length]. lia.
        -- split; [trivial|split; trivial]. cbn [s_one s_mul]. eapply perm_trans; [apply Permutation_app_tail; exact PA|].
           rewrite <- app_assoc. eapply perm_trans; [apply Permutation_app_head; apply Permutation_app_comm|].
           rewrite app_assoc. apply Permutation_app_tail. now apply Permutation_sym.
  - assert (NC : c <> -1) by congruence. cbn [sreq_step]. unfold cxt_unsub, answer. cbn [in_force_step].
    replace (c =? -1) with false by (symmetry; now apply Z.eqb_neq).
    destruct (unsub_spec (fun _ => false) one_P c NC ltac:(intros ? ? ? X; exact X) (s_one x) 0 ltac:(apply I1) ltac:(apply I1)) as (a & d & E1 & O1 & _ & F1 & L1).
    destruct (unsub_spec H (mul_P H) c NC ltac:(intros ? ? ? X; exact X) (s_mul x) 0 ltac:(apply I2) ltac:(apply I2)) as (b & e & E2 & O2 & _ & F2 & L2).
    rewrite E1, E2. exists (mkcxt a b).
    assert (PD : Permutation (drop_client c A) (flat (fun _ => false) a ++ flat H b)).
    { rewrite F1, F2. unfold drop_client. rewrite <- filter_app. now apply perm_filter. }
    split; [|split; [trivial|split; trivial]]. f_equal. f_equal.
    apply perm_len in PD. apply perm_len in PA. rewrite app_length in PD, PA. lia.
Qed.
Lemma sstep_all H x A : sinv H (fst (cxt_unsub x (-1))) [] /\ in_force_step A (RUnsub (-1)) = [].
Proof.
  split; [|reflexivity]. unfold cxt_unsub. pose proof (unsub_all (s_one x) 0) as U1. pose proof (unsub_all (s_mul x) 0) as U2.
  destruct (unsub_notice (s_one x) (-1) 0), (unsub_notice (s_mul x) (-1) 0). cbn in *. subst.
  split; [|split]; cbn; [split; constructor|split; constructor|constructor].
Qed.

(** * publishing *)
Definition pick (c : Z) (s : str) (a : asub) : bool := let '(c', h, p) := a in (c' =? c) && covers h p s.
Lemma count_flat1 H c s k u : NoDup (u_msgs u) ->
  List.length (filter (pick c s) (flat1 H (k, u))) = if covers (H (map lower k)) k s then count_occ Z.eq_dec (u_msgs u) c else 0%nat.
Proof.
  intros _. unfold flat1. cbn [fst snd]. induction (u_msgs u) as [|x l IH]; cbn [map filter count_occ].
  - now destruct (covers (H (map lower k)) k s).
  - unfold pick at 1. rewrite covers_lower. destruct (Z.eq_dec x c) as [->|N].
    + rewrite Z.eqb_refl. cbn [andb]. destruct (covers (H (map lower k)) k s); cbn [List.length]; rewrite IH; reflexivity.
    + replace (x =? c) with false by lia. cbn [andb]. exact IH.
Qed.
Lemma pub_mul_spec H c s : short_name s -> forall es, Forall (entry_ok (mul_P H)) es ->
  exists out, pub_mul es s = Some out /\ count_occ Z.eq_dec out c = List.length (filter (pick c s) (flat H es)).
Proof.
  intros SN. induction es as [|[k u] es IH]; intros F.
  - exists []. split; reflexivity.
  - inversion F as [|? ? (A & (K1 & K2 & K3)) B]; subst. cbn [fst snd] in *. destruct (IH B) as (out & E & CO).
    cbn [pub_mul]. rewrite (notice_covers _ _ _ _ K1 K2 K3 SN), E. eexists. split; [reflexivity|].
    unfold flat in *. cbn [flat_map]. rewrite filter_app, app_length, count_occ_app, CO, count_flat1 by trivial.
    destruct (covers (H (map lower k)) k s); reflexivity.
Qed.
Lemma pub_one_spec c s m : map_ok one_P m ->
  count_occ Z.eq_dec (match find_unit m s with Some u => u_msgs u | None => [] end) c =
  List.length (filter (pick c s) (flat (fun _ => false) m)).
Proof.
  intros (ND & F). induction m as [|[k u] m IH]; [reflexivity|]. cbn [find_unit].
  inversion F as [|? ? (A & (K1 & K2 & K3 & K4)) B]; subst. cbn [fst snd] in *. unfold lkeys in ND. cbn [map fst] in ND. inversion ND as [|? ? N1 N2]; subst.
  unfold flat in *. cbn [flat_map]. rewrite filter_app, app_length, count_flat1 by trivial. rewrite one_covers by trivial.
  rewrite casecmp_same, (same_sym s k). destruct (same k s) eqn:E.
  - replace (List.length (filter (pick c s) (flat_map (flat1 (fun _ => false)) m))) with 0%nat; [lia|]. symmetry.
    rewrite <- IH by trivial. destruct (find_unit m s) as [v|] eqn:FU; [|reflexivity]. exfalso. apply N1.
    destruct (find_unit_some _ _ _ FU) as (q & I & S). apply same_iff in S, E. rewrite E, S.
    apply (in_map (fun e => map lower (fst e)) m (q, v) I).
  - cbn [Nat.add]. now apply IH.
Qed.
Lemma pub_spec H x A c s es : sinv H x A -> short_name s -> Permutation es (s_mul x) ->
  exists out, cxt_pub x es s = Some out /\ count_occ Z.eq_dec out c = wanted A c s.
Proof.
  intros (I1 & I2 & PA) SN PE.
  assert (FE : Forall (entry_ok (mul_P H)) es).
  { apply Forall_forall. intros e I. destruct I2 as (_ & F). rewrite Forall_forall in F. apply F. now apply (Permutation_in _ PE). }
  destruct (pub_mul_spec H c s SN es FE) as (out & E & CO). unfold cxt_pub. rewrite E. eexists. split; [reflexivity|].
  rewrite count_occ_app, CO, (pub_one_spec c s _ I1). unfold wanted.
  etransitivity; [|symmetry; exact (perm_len _ _ _ (perm_filter _ (pick c s) _ _ PA))]. rewrite filter_app, app_length. f_equal.
  apply perm_len, perm_filter. unfold flat. now apply Permutation_flat_map.
Qed.

(** * any history *)
Definition nodup_map (m : smap) : Prop := Forall (fun e => NoDup (u_msgs (snd e))) m.
Lemma nodup_put m k u : nodup_map m -> NoDup (u_msgs u) -> nodup_map (put_unit m k u).
Proof.
  intros F N. induction F as [|[q v] m A B IH]; cbn; [constructor; [exact N|constructor]|].
  destruct (casecmp k q); constructor; trivial.
Qed.
Lemma nodup_sub m c p h m' o : nodup_map m -> sub_notice m c p h = Some (m', o) -> nodup_map m'.
Proof.
  intros F. unfold sub_notice. destruct (find_unit m p) as [u|] eqn:E.
  - destruct (existsb (Z.eqb c) (u_msgs u)) eqn:X; intros [= <- <-]; trivial. apply nodup_put; trivial. cbn.
    destruct (find_unit_some _ _ _ E) as (k & I & _). unfold nodup_map in F. rewrite Forall_forall in F. apply NoDup_snoc; [exact (F _ I)|].
    intros J. apply existsb_in in J. congruence.
  - destruct (set_type p h) as [[[t a] b]|]; [|discriminate]. intros [= <- <-]. apply nodup_put; trivial. cbn. constructor; [auto|constructor].
Qed.
Lemma del_first_nodup c l : NoDup l -> NoDup (del_first c l) /\ ~ In c (del_first c l).
Proof.
  intros N. rewrite del_first_filter by trivial. split; [now apply filter_nodup|]. intros I. apply filter_In in I. destruct I as (_ & I).
  rewrite Z.eqb_refl in I. discriminate.
Qed.
Lemma nodup_unsub c m : forall n, nodup_map m -> nodup_map (fst (unsub_notice m c n)) /\
  Forall (fun e => ~ In c (u_msgs (snd e))) (fst (unsub_notice m c n)).
Proof.
  induction m as [|[k u] m IH]; intros n F; cbn [unsub_notice]; [split; constructor|].
  inversion F as [|? ? A B]; subst. cbn [snd] in A. destruct (c =? -1); [now apply IH|].
  destruct (existsb (Z.eqb c) (u_msgs u)) eqn:X.
  - specialize (IH (n + 1) B). destruct (unsub_notice m c (n + 1)) as [r q]. cbn [fst] in *. destruct IH as (I1 & I2).
    destruct (del_first_nodup c _ A) as (D1 & D2).
    destruct (del_first c (u_msgs u)); [split; trivial|]. split; constructor; trivial.
  - specialize (IH n B). destruct (unsub_notice m c n) as [r q]. cbn [fst] in *. destruct IH as (I1 & I2).
    split; constructor; trivial. cbn. intros I. apply existsb_in in I. congruence.
Qed.
Lemma srun_nodup rs : forall x y os, nodup_map (s_one x) -> nodup_map (s_mul x) -> srun x rs = Some (y, os) ->
  nodup_map (s_one y) /\ nodup_map (s_mul y).
Proof.
  induction rs as [|r rs IH]; intros x y os A B; cbn [srun]; [intros [= <- <-]; auto|].
  destruct (sreq_step x r) as [[z o]|] eqn:E; [|discriminate]. destruct (srun z rs) as [[w os']|] eqn:F; [|discriminate]. intros [= <- <-].
  assert (ZN : nodup_map (s_one z) /\ nodup_map (s_mul z)).
  { destruct r as [c h p|c|c]; cbn [sreq_step] in E.
    - unfold cxt_sub in E. destruct p as [|p0 p]; [injection E as <- <-; auto|].
      destruct (h || exist_ch (p0 :: p) [STAR; COMMA]).
      + destruct (sub_notice (s_mul x) c (p0 :: p) h) as [[m o']|] eqn:S; [|discriminate]. injection E as <- <-. cbn [s_one s_mul]. split; [first [exact A|exact (nodup_sub _ _ _ _ _ _ A S)]|first [exact B|exact (nodup_sub _ _ _ _ _ _ B S)]].
      + destruct (sub_notice (s_one x) c (p0 :: p) h) as [[m o']|] eqn:S; [|discriminate]. injection E as <- <-. cbn [s_one s_mul]. split; [first [exact A|exact (nodup_sub _ _ _ _ _ _ A S)]|first [exact B|exact (nodup_sub _ _ _ _ _ _ B S)]].
    - unfold cxt_unsub in E. pose proof (nodup_unsub c _ 0 A) as (U1 & _). pose proof (nodup_unsub c _ 0 B) as (U2 & _).
      destruct (unsub_notice (s_one x) c 0), (unsub_notice (s_mul x) c 0). injection E as <- <-. split; trivial.
    - unfold cmd_clear in E. change (negb (casecmp _ _)) with false in E. cbn iota in E. injection E as <- <-. split; trivial. }
  eapply (IH z); eauto; tauto.
Qed.
Lemma pub_mul_none c s : forall es out, Forall (fun e => ~ In c (u_msgs (snd e))) es -> pub_mul es s = Some out -> ~ In c out.
Proof.
  induction es as [|[k u] es IH]; intros out F; cbn [pub_mul]; [intros [= <-]; auto|].
  inversion F as [|? ? A B]; subst. cbn [snd] in A. destruct (notice u s) as [b|]; [|discriminate]. destruct (pub_mul es s) as [o|] eqn:E; [|discriminate].
  intros [= <-]. intros I. apply in_app_or in I. destruct I as [I|I]; [destruct b; [contradiction|contradiction]|]. now apply (IH o B eq_refl).
Qed.
