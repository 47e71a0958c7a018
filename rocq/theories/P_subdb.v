(** C79: the service of a day's data. *)
From Coq Require Import ZArith List Bool Lia ZifyBool ZifyNat Sorting.Permutation String.
From Verif Require Import Base S_server M_server L_map S_sub M_sub L_sub P_sub S_json M_json L_json L_jsonwrite P_json S_kdict M_kdict S_subdb M_subdb L_subdb.
Import ListNotations.
Open Scope list_scope.
Open Scope Z_scope.

(** C79: in every history of usual commands in which days begin and end in turn, what each reader hears
    is a sequence of days, each made of start, keys, tables, wait, data and stop in this order and for
    one date; giving up ends a day.  ([false]: a stop may come to a reader that heard no start, see
    C79_stop_refuted.) *)
Theorem C79_stream_partial : forall h s o, history h s o -> orderly false h -> Forall usual h ->
  forall c, exists p, follow false PClosed (to c o) = Some p.
Proof. intros h s o R O U c. eexists. exact (i_follow _ _ _ (history_inv h s o R O U) c). Qed.
Print Assumptions C79_stream_partial.

Lemma datas_app a b : datas (a ++ b) = datas a ++ datas b.
Proof. unfold datas. now rewrite flat_map_app. Qed.
Lemma datas_repeat n k : datas (repeat (HData n) k) = repeat n k.
Proof. induction k as [|k IH]; trivial. cbn [repeat]. change (n :: datas (repeat (HData n) k) = n :: repeat n k). now rewrite IH. Qed.
Lemma greet_datas d k t u o : greet d k t u = Some o -> datas (map snd o) = [].
Proof.
  unfold greet. destruct k as [k|]; [|discriminate]. destruct t as [|t|]; try discriminate.
  destruct (match_sdb (u_subt u) t) as [[|x|]|]; try discriminate. intros [= <-].
  destruct (match_key (u_subk u) k) as [y|]; reflexivity.
Qed.
Lemma pub_facts h s o s1 es n s' o' : history h s o -> orderly false h -> Forall usual h -> short_name n ->
  may_be s s1 es -> run_cmd s1 es (CPub n) = Some (s', o', true) ->
  inv h s1 o /\ inv h s' (o ++ o') /\ d_st s' = SWork /\ Forall (fun u => u_st u = SWork) (d_users s') /\
  exists og l, o' = og ++ map (fun c => (c, HData n)) l /\
    (forall c, to c o' = to c og ++ repeat (HData n) (wanted (in_force (requests h)) c n)) /\
    (forall c, to c og = [] \/ exists u o1, In u (d_users s1) /\ u_cid u = c /\ u_st u = SInit /\
       greet (d_date s1) (d_keys s1) (d_tabs s1) u = Some o1 /\ to c og = map snd o1).
Proof.
  intros R O U SN (us & P & -> & PE) E. pose proof (inv_perm _ _ _ _ (history_inv h s o R O U) P) as I.
  set (s1 := set_users s us) in *. cbn [run_cmd] in E.
  assert (PE1 : Permutation es (s_mul (d_subs s1))) by exact PE.
  pose proof (pub_inv _ _ _ _ _ _ _ _ I SN PE1 E) as I'.
  unfold do_pub in E. destruct (reader_init s1) as [[[s2 og] [|]]|] eqn:RI; [|discriminate|discriminate].
  destruct (reader_init_spec _ _ _ _ _ I RI) as (I1 & W & AW & SB & TB & GR).
  destruct (cxt_pub (d_subs s2) es n) as [l|] eqn:C; [|discriminate]. injection E as <- <-.
  split; trivial. split; trivial. split; trivial. split; trivial. exists og, l. split; trivial. split; trivial.
  intros c. rewrite to_app, to_data. f_equal. f_equal. rewrite SB in C.
  destruct (pub_spec all_heads (d_subs s1) _ c n es (i_subs _ _ _ I) SN PE1) as (out & E1 & E2). rewrite C in E1. injection E1 as <-. exact E2.
Qed.

(** A publication that is accepted: the day is open and has keys, each reader gets the message once for
    each of its subscriptions in force that covers it - nobody else gets it - and afterwards the stream
    of every reader is open at the date of the day. *)
Theorem C79_pub : forall h s o s1 es n s' o', history h s o -> orderly false h -> Forall usual h -> short_name n ->
  may_be s s1 es -> run_cmd s1 es (CPub n) = Some (s', o', true) ->
  day_open h = true /\
  (forall c, datas (to c o') = repeat n (wanted (in_force (requests h)) c n)) /\
  (forall c, follow false PClosed (to c (o ++ o')) = Some (if reader h c then POpen (day_date h) else PClosed)).
Proof.
  intros h s o s1 es n s' o' R O U SN M E. destruct (pub_facts _ _ _ _ _ _ _ _ R O U SN M E) as (I & I' & W & AW & og & l & EO & TO & GR).
  split; [rewrite (i_open _ _ _ I'), W; reflexivity|]. split.
  - intros c. rewrite TO, datas_app, datas_repeat. destruct (GR c) as [->|(u & o1 & _ & _ & _ & G & ->)]; [reflexivity|].
    now rewrite (greet_datas _ _ _ _ _ G).
  - intros c. rewrite (i_follow _ _ _ I'). f_equal. unfold phase_of. rewrite (all_work _ AW), (i_date _ _ _ I'), (i_reader _ _ _ I'). reflexivity.
Qed.
Print Assumptions C79_pub.

(** * what the announcements say *)
Lemma drop_blank_id l : Forall (fun c => 32 < c) l -> drop_blank l = l.
Proof. intros F. destruct F as [|c l C F]; trivial. cbn. replace (32 <? c) with true by lia. reflexivity. Qed.
Lemma trim_id l : Forall (fun c => 32 < c) l -> trim l = l.
Proof. intros F. unfold trim. rewrite (drop_blank_id (rev l)) by now apply Forall_rev. rewrite rev_involutive. now apply drop_blank_id. Qed.
Lemma covers_nil h p : names_cover h p [] = false.
Proof.
  unfold names_cover. induction (parts p) as [|e l IH]; cbn; trivial. rewrite IH, orb_false_r. destruct e as [|c e]; trivial. destruct h; reflexivity.
Qed.
Lemma load_parts f t : f [] = false -> forall cur, Forall (fun c => 32 < c) (cur ++ t) -> has COMMA cur = false ->
  filter f (load cur t) = filter f (parts (cur ++ t)).
Proof.
  intros FN. induction t as [|c t IH]; intros cur F C.
  - rewrite app_nil_r in *. rewrite parts_nocomma by trivial. cbn [load]. destruct cur as [|x cur]; [cbn; now rewrite FN|]. now rewrite trim_id.
  - cbn [load]. destruct (c =? 44) eqn:E.
    + assert (c = COMMA) by (unfold COMMA; lia). subst c. rewrite parts_app by trivial. apply Forall_app in F. destruct F as (F1 & F2).
      cbn [filter]. rewrite trim_id by trivial. inversion F2; subst. rewrite (IH []) by (trivial). reflexivity.
    + replace (cur ++ c :: t) with ((cur ++ [c]) ++ t) in * by (rewrite <- app_assoc; reflexivity). apply IH; trivial.
      unfold has in *. rewrite existsb_app, C. cbn. unfold COMMA. lia.
Qed.
Lemma load_nocomma t : forall cur, Forall (fun c => 32 < c) (cur ++ t) -> has COMMA cur = false -> Forall (fun k => has COMMA k = false) (load cur t).
Proof.
  induction t as [|c t IH]; intros cur F C.
  - rewrite app_nil_r in *. cbn [load]. destruct cur as [|x cur]; constructor; [now rewrite trim_id|constructor].
  - cbn [load]. destruct (c =? 44) eqn:E.
    + apply Forall_app in F. destruct F as (F1 & F2). inversion F2; subst. constructor; [now rewrite trim_id|]. now apply IH.
    + apply IH; [rewrite <- app_assoc; exact F|]. unfold has in *. rewrite existsb_app, C. cbn. unfold COMMA. lia.
Qed.
Lemma cat_keys_spec p l : Forall (fun k => has COMMA k = false) l -> forall o,
  cat_keys o (sds_part p) l =
  match filter (names_cover true p) l, o with
  | [], _ => o | ks, None => Some (commas ks) | ks, Some t => Some (t ++ COMMA :: commas ks) end.
Proof.
  induction 1 as [|k l C F IH]; intros o; [destruct o; reflexivity|]. cbn [cat_keys filter]. rewrite IH. rewrite subcmp_part by trivial.
  cbn [negb]. destruct (names_cover true p k).
  - destruct (filter (names_cover true p) l) as [|q ks] eqn:E; destruct o as [t|]; cbn [commas]; trivial. rewrite <- app_assoc. reflexivity.
  - destruct (filter (names_cover true p) l), o; trivial.
Qed.
Lemma star_part p : is_star (sds_part p) = same p [STAR].
Proof. destruct p as [|c p]; [reflexivity|]. cbn [sds_part is_star]. apply casecmp_same. Qed.
Lemma match_key_spec p t : Forall (fun c => 32 < c) t -> match_key (sds_part p) t = keys_for p t.
Proof.
  intros F. unfold match_key, keys_for. rewrite star_part. destruct (same p [STAR]); trivial.
  rewrite cat_keys_spec by now apply load_nocomma. rewrite (load_parts _ t) with (cur := []); [|apply covers_nil|exact F|reflexivity].
  cbn [app]. unfold str in *. destruct (filter (names_cover true p) (parts t)); reflexivity.
Qed.
Lemma divide_nodot l : forall one, has DOT l = false -> divide_sds l one = (sds_part (one ++ before_dot l), sds_part (after_dot l)).
Proof.
  induction l as [|c t IH]; intros one H; cbn; [now rewrite app_nil_r|]. unfold has in H. cbn [existsb] in H.
  apply orb_false_iff in H. destruct H as (H1 & H2). rewrite Z.eqb_sym in H1. rewrite H1. rewrite IH by exact H2. now rewrite <- app_assoc.
Qed.
Lemma divide_parts p : divide_sds p [] = (sds_part (before_dot p), sds_part (after_dot p)).
Proof. destruct (has DOT p) eqn:E; [now rewrite divide_sds_spec|now rewrite divide_nodot]. Qed.

(** texts of tables: an object of objects or arrays with names without commas, in the grammar that is
    read and written, whose strings are below 2^28 bytes, and which is below 2^31 bytes when written *)
Definition table_text (t : str) (l : list (str * jv)) : Prop :=
  jtext false (JObj l) t /\ readable (JObj l) /\ Forall (fun kv => container (snd kv) /\ has COMMA (fst kv) = false) l /\
  Z.of_nat (List.length t) < 2 ^ 31 /\
  forall n, shaped (JObj l) None n -> short (2 ^ 28) n /\ forall x, json_output false n = WText x -> Z.of_nat (List.length x) < 2 ^ 31.
Definition with_tables (c : scmd) : Prop := match c with CTables (Some t) => exists l, table_text t l | _ => True end.

(** the text kept: another text of the same object *)
Definition kept (l : list (str * jv)) (x : str) : Prop :=
  jtext false (JObj l) x /\ exists n, shaped (JObj l) None n /\ load_text x = LTree n.
Lemma kept_text t l : table_text t l -> exists n x, load_text t = LTree n /\ to_sds n = Some (HdText x) /\ kept l x.
Proof.
  intros (T & RD & _ & L & Q). destruct (C50_partial (JObj l) [] t [] (S (List.length t)) T Logic.I ltac:(constructor) L ltac:(lia)) as (n & E & S0).
  cbn [app] in E. rewrite app_nil_r in E. destruct (Q n S0) as (SH & LN).
  destruct (C52_partial false (JObj l) n Logic.I RD S0 SH) as (x & X1 & X2 & X3). exists n, x. split; [exact E|].
  split; [unfold to_sds; now rewrite X1|]. split; trivial. exists n. split; trivial. unfold load_text. apply X3; [now apply LN|lia].
Qed.
Lemma tables_kept h s o : history h s o -> Forall with_tables h ->
  match last_tables h with None => d_tabs s = HdNull | Some t => exists l x, table_text t l /\ kept l x /\ d_tabs s = HdText x end.
Proof.
  induction 1 as [|h s o s1 es c s' o' b R IH M E]; intros F; [reflexivity|]. apply Forall_app in F. destruct F as (F & FC).
  inversion FC as [|? ? WT _]; subst. specialize (IH F). destruct M as (us & P & -> & PE).
  assert (T : d_tabs (set_users s us) = d_tabs s) by reflexivity. revert E T. set (s1 := set_users s us). intros E T.
  unfold last_tables. rewrite fold_snoc. fold (last_tables h). rewrite <- T in IH.
  destruct c as [i|i|d| |n|c n|c|c]; cbn [run_cmd] in E.
  - unfold set_keys in E. destruct i; [|discriminate]. injection E as <- <- <-. exact IH.
  - destruct i as [t|]; [|unfold set_tables in E; destruct (d_tabs s1); discriminate].
    destruct WT as (l & TT). destruct (kept_text t l TT) as (n & x & A & B & K). unfold set_tables in E. rewrite A, B in E.
    exists l, x. split; trivial. split; trivial. destruct (d_tabs s1); try discriminate; injection E as <- <- <-; reflexivity.
  - injection E as <- <- <-. exact IH.
  - unfold do_stop in E. destruct (_ || _); [injection E as <- <- <-; exact IH|]. destruct (stop_all (d_date s1) (d_users s1)) as (a, b').
    injection E as <- <- <-. exact IH.
  - unfold do_pub in E. destruct (reader_init s1) as [[[s2 og] f]|] eqn:RI; [|discriminate].
    assert (T2 : d_tabs s2 = d_tabs s1).
    { unfold reader_init in RI. destruct (_ || _); [now injection RI as <- <- <-|]. destruct (_ && _); [now injection RI as <- <- <-|].
      destruct (_ <=? _); [now injection RI as <- <- <-|]. destruct (greet_all _ _ _ _ _) as [[[a b1] c1]|]; [|discriminate]. now injection RI as <- <- <-. }
    rewrite <- T2 in IH. destruct f; [|injection E as <- <- <-; exact IH]. destruct (cxt_pub (d_subs s2) es n) as [z|]; [|discriminate].
    injection E as <- <- <-. exact IH.
  - unfold do_sub in E. destruct (cxt_sub (d_subs s1) c true n) as [[x m]|]; [|discriminate]. injection E as <- <- <-. exact IH.
  - injection E as <- <- <-. unfold do_unsub. destruct (existsb _ _); exact IH.
  - injection E as <- <- <-. exact IH.
Qed.
Lemma shaped_key v k n : shaped v k n -> jkey n = k.
Proof. destruct v; cbn [shaped]; tauto. Qed.
Lemma shape_filter p l : Forall (fun kv : str * jv => container (snd kv) /\ has COMMA (fst kv) = false) l -> forall ks, obj_shape l ks ->
  obj_shape (filter (fun kv => names_cover false p (fst kv)) l) (filter (keep (sds_part p)) ks).
Proof.
  induction 1 as [|[k v] l (_ & C) F IH]; intros [|c ks] S; cbn [obj_shape] in S; try contradiction; [exact Logic.I|].
  destruct S as (S1 & S2). cbn [filter fst]. unfold keep at 1. rewrite (shaped_key _ _ _ S1). cbn [fst] in C. rewrite subcmp_part by exact C.
  cbn [negb]. destruct (names_cover false p k); [cbn [obj_shape]; split; trivial|]; now apply IH.
Qed.
Lemma filter_last (f : str * jv -> bool) l : Forall (fun kv => container (snd kv)) l -> ~ is_bool (snd (last (filter f l) ([], JNull))).
Proof.
  intros F. destruct (filter f l) as [|e q] eqn:E; [cbn; tauto|]. assert (I : In (last (e :: q) ([], JNull)) (e :: q)).
  { destruct (exists_last (l := e :: q) ltac:(discriminate)) as (l' & x & X). rewrite X, last_last. apply in_or_app. right. now left. }
  rewrite <- E in I at 2. apply filter_In in I. destruct I as (I & _). rewrite Forall_forall in F. specialize (F _ I).
  destruct (snd (last (e :: q) ([], JNull))); cbn in *; tauto.
Qed.
Lemma match_sdb_spec p t l x : table_text t l -> kept l x -> exists y, match_sdb (sds_part p) x = Some (HdText y) /\ jtext false (JObj (tables_for p l)) y.
Proof.
  intros (T & RD & TN & L & Q) (K1 & n & K2 & K3). unfold match_sdb, tables_for. rewrite star_part. destruct (same p [STAR]); [now exists x|].
  rewrite K3. destruct (Q n K2) as (SH & _). destruct n as [ty k v kids]. apply shaped_obj in K2.
  destruct K2 as (E1 & E2 & E3 & OS). cbn in E1, E2, E3. subst ty k v. set (l' := filter (fun kv => names_cover false p (fst kv)) l).
  destruct (C52_partial false (JObj l') (JN 7 None None (filter (keep (sds_part p)) kids)) Logic.I) as (y & Y1 & Y2 & _).
  - apply readable_obj in RD. destruct RD as (_ & RD). apply readable_obj. split.
    + apply filter_last. eapply Forall_impl; [|exact TN]. intros kv (A & _). exact A.
    + apply Forall_forall. intros kv I. apply filter_In in I. destruct I as (I & _). rewrite Forall_forall in RD. now apply RD.
  - apply shaped_obj. cbn [jkey jty jval jkids]. split; trivial. split; trivial. split; trivial. now apply shape_filter.
  - apply short_kids in SH. destruct SH as (A & B & C). apply short_kids. split; trivial. split; trivial.
    apply Forall_forall. intros c I. apply filter_In in I. destruct I as (I & _). rewrite Forall_forall in C. now apply C.
  - exists y. split; trivial. unfold to_sds. now rewrite Y1.
Qed.

(** A reader whose day begins hears in this order: the start, the keys given last that begin with one of
    the names of its pattern, the definitions of the tables given last that its pattern names, wait, and
    the message of this publication if it covers it.  (Its pattern is the first since it last gave up.) *)
Theorem C79_greeting : forall h s o s1 es n s' o' c d, history h s o -> orderly false h -> Forall usual h -> Forall with_tables h -> short_name n ->
  may_be s s1 es -> run_cmd s1 es (CPub n) = Some (s', o', true) -> In (HStart d) (to c o') ->
  exists p k t l y, first_pattern h c = Some p /\ last_keys h = Some k /\ last_tables h = Some t /\ table_text t l /\
    jtext false (JObj (tables_for (after_dot p) l)) y /\
    (Forall (fun x => 32 < x) k ->
     to c o' = HStart (day_date h) :: match keys_for (before_dot p) k with Some x => [HKeys x] | None => [] end ++
       [HTables y; HWait (day_date h)] ++ repeat (HData n) (wanted (in_force (requests h)) c n)).
Proof.
  intros h s o s1 es n s' o' c d R O U WT SN M E ST. destruct (pub_facts _ _ _ _ _ _ _ _ R O U SN M E) as (I & I' & W & AW & og & l0 & EO & TO & GR).
  pose proof (tables_kept _ _ _ R WT) as TK.
  assert (TB : d_tabs s1 = d_tabs s) by (destruct M as (us & _ & -> & _); reflexivity). rewrite <- TB in TK.
  rewrite TO in ST. destruct (GR c) as [G|(u & o1 & J & UC & US & G & TG)].
  { exfalso. rewrite G in ST. cbn in ST. apply repeat_spec in ST. discriminate. }
  pose proof (i_pat _ _ _ I) as PT. rewrite Forall_forall in PT. destruct (PT u J) as (p & FP & DV). rewrite UC in FP.
  rewrite divide_parts in DV. injection DV as DK DT.
  rewrite <- (i_keys _ _ _ I). unfold greet in G. destruct (d_keys s1) as [k|] eqn:KE; [|discriminate].
  destruct (last_tables h) as [t|] eqn:LT; [|rewrite TK in G; discriminate]. destruct TK as (l & x & TT & KP & TX). rewrite TX in G.
  destruct (match_sdb_spec (after_dot p) t l x TT KP) as (y & MS & JT). rewrite <- DT, MS in G. injection G as <-.
  exists p, k, t, l, y. split; trivial. split; trivial. split; trivial. split; trivial. split; trivial.
  intros NB. rewrite TO, TG. rewrite <- DK, (match_key_spec _ _ NB), (i_date _ _ _ I).
  destruct (keys_for (before_dot p) k) as [z|]; reflexivity.
Qed.
Print Assumptions C79_greeting.

(** A refused publication sends nothing, and is refused only when no day is open or when the keys or the
    tables have never been given. *)
Theorem C79_refused : forall h s o s1 es n s' o', history h s o -> orderly false h -> Forall usual h -> Forall with_tables h ->
  may_be s s1 es -> run_cmd s1 es (CPub n) = Some (s', o', false) ->
  o' = [] /\ (day_open h = false \/ last_keys h = None \/ last_tables h = None).
Proof.
  intros h s o s1 es n s' o' R O U WT M E. pose proof (tables_kept _ _ _ R WT) as TK.
  assert (TB : d_tabs s1 = d_tabs s) by (destruct M as (us & _ & -> & _); reflexivity). rewrite <- TB in TK.
  destruct M as (us & P & -> & PE). pose proof (inv_perm _ _ _ _ (history_inv h s o R O U) P) as I. set (s1 := set_users s us) in *.
  cbn [run_cmd] in E. unfold do_pub in E. destruct (reader_init s1) as [[[s2 og] [|]]|] eqn:RI; [|injection E as <- <-|discriminate].
  { destruct (cxt_pub (d_subs s2) es n); discriminate. }
  destruct (reader_init_refused _ _ _ RI) as (-> & -> & Q). split; trivial.
  destruct Q as [Q|(_ & [Q|Q])].
  - left. now rewrite (i_open _ _ _ I).
  - right. left. now rewrite <- (i_keys _ _ _ I).
  - right. right. destruct (last_tables h) as [t|]; trivial. destruct TK as (l & x & _ & _ & TX). rewrite TX in Q. discriminate.
Qed.
Print Assumptions C79_refused.

(** * nothing is read that is not there *)
Lemma work_ready h s o : history h s o -> Forall with_tables h -> d_st s = SWork -> d_keys s <> None /\ d_tabs s <> HdNull.
Proof.
  induction 1 as [|h s o s1 es c s' o' b R IH M E]; intros F W; [discriminate|]. apply Forall_app in F. destruct F as (F & FC).
  inversion FC as [|? ? WT _]; subst. specialize (IH F). destruct M as (us & P & -> & PE).
  assert (IH1 : d_st (set_users s us) = SWork -> d_keys (set_users s us) <> None /\ d_tabs (set_users s us) <> HdNull) by exact IH.
  clear IH. revert E IH1. set (s1 := set_users s us). intros E IH.
  destruct c as [i|i|d| |n|c n|c|c]; cbn [run_cmd] in E.
  - unfold set_keys in E. destruct i; [|discriminate]. injection E as <- <- <-. cbn [d_st d_keys d_tabs] in *. split; [discriminate|now apply IH].
  - destruct i as [t|]; [|unfold set_tables in E; destruct (d_tabs s1); discriminate].
    destruct WT as (l & TT). destruct (kept_text t l TT) as (n & x & A & B & K). unfold set_tables in E. rewrite A, B in E.
    destruct (d_tabs s1); try discriminate; injection E as <- <- <-; cbn [d_st d_keys d_tabs] in *; (split; [now apply IH|discriminate]).
  - injection E as <- <- <-. discriminate.
  - unfold do_stop in E. destruct (_ || _); [injection E as <- <- <-; now apply IH|]. destruct (stop_all (d_date s1) (d_users s1)) as (a, b').
    injection E as <- <- <-. discriminate.
  - unfold do_pub in E. destruct (reader_init s1) as [[[s2 og] f]|] eqn:RI; [|discriminate].
    assert (Q : d_st s2 = SWork -> d_keys s2 <> None /\ d_tabs s2 <> HdNull).
    { unfold reader_init in RI. destruct (_ || _) eqn:E1 in RI; [injection RI as <- <- <-; exact IH|].
      destruct (status_eqb (d_st s1) SInit && _) eqn:E2 in RI; [injection RI as <- <- <-; exact IH|].
      assert (Q : d_keys s1 <> None /\ d_tabs s1 <> HdNull).
      { destruct (d_st s1) eqn:ST; [discriminate| |now apply IH|discriminate]. cbn [status_eqb andb] in E2.
        destruct (d_keys s1); [|discriminate]. destruct (d_tabs s1); [discriminate|split; discriminate|split; discriminate]. }
      destruct (_ <=? _) in RI; [injection RI as <- <- <-; intros _; exact Q|].
      destruct (greet_all _ _ _ _ _) as [[[a b1] c1]|] in RI; [|discriminate]. injection RI as <- <- <-. intros _. exact Q. }
    destruct f; [|injection E as <- <- <-; now apply Q]. destruct (cxt_pub (d_subs s2) es n) as [z|]; [|discriminate].
    injection E as <- <- <-. now apply Q.
  - unfold do_sub in E. destruct (cxt_sub (d_subs s1) c true n) as [[x m]|]; [|discriminate]. injection E as <- <- <-. now apply IH.
  - injection E as <- <- <-. unfold do_unsub in *. destruct (existsb _ _); now apply IH.
  - injection E as <- <- <-. now apply IH.
Qed.
Lemma greet_all_some date k x t l us : table_text t l -> kept l x -> Forall (fun u => exists p, u_subt u = sds_part p) us ->
  forall n, exists r, greet_all date (Some k) (HdText x) us n = Some r.
Proof.
  intros TT KP. induction 1 as [|u us (p & UP) F IH]; intros n; [now eexists|]. cbn [greet_all]. destruct (status_eqb (u_st u) SInit).
  - unfold greet. destruct (match_sdb_spec p t l x TT KP) as (y & MS & _). rewrite UP, MS. destruct (IH (n + 1)) as (((a & b) & c) & ->). now eexists.
  - destruct (IH n) as (((a & b) & c) & ->). now eexists.
Qed.
Definition contents (c : scmd) : Prop := match c with CKeys None | CTables None => False | _ => True end.

(** After usual commands with readable tables, in days that begin and end in turn, no further command with a content crashes the
    service, in whatever order its loops meet readers and patterns (C79_ok is such a history).  What is missing: tables that are
    not readable and missing contents (C79_bad_tables_refuted, C79_no_content_refuted), closed connections, and days that begin
    while another is open. *)
Theorem C79_safe_partial : forall h s o s1 es c, history h s o -> orderly false h -> Forall usual h -> Forall with_tables h ->
  usual c -> with_tables c -> contents c -> may_be s s1 es -> run_cmd s1 es c <> None.
Proof.
  intros h s o s1 es c R O U WT UC WC CC M. pose proof (tables_kept _ _ _ R WT) as TK. pose proof (work_ready _ _ _ R WT) as WR.
  destruct M as (us & P & -> & PE). pose proof (inv_perm _ _ _ _ (history_inv h s o R O U) P) as I.
  change (d_tabs s) with (d_tabs (set_users s us)) in TK, WR. change (d_keys s) with (d_keys (set_users s us)) in WR. change (d_st s) with (d_st (set_users s us)) in WR.
  change (s_mul (d_subs s)) with (s_mul (d_subs (set_users s us))) in PE. revert TK WR I PE. set (s1 := set_users s us). intros TK WR I PE.
  destruct c as [i|i|d| |n|c n|c|c]; cbn [run_cmd].
  - destruct i; [discriminate|contradiction].
  - destruct i as [t|]; [|contradiction]. destruct WC as (l & TT). destruct (kept_text t l TT) as (n & x & A & B & _). unfold set_tables. rewrite A, B.
    destruct (d_tabs s1) eqn:D; [discriminate|discriminate|]. destruct (last_tables h); [destruct TK as (? & ? & _ & _ & ?)|]; discriminate.
  - discriminate.
  - destruct (do_stop s1) as ((a, b'), c). discriminate.
  - unfold do_pub.
    assert (RI : exists s2 og f, reader_init s1 = Some (s2, og, f) /\ d_subs s2 = d_subs s1).
    { unfold reader_init. destruct (status_eqb (d_st s1) SStop || status_eqb (d_st s1) SNone) eqn:E1; [now eexists _, _, _|].
      destruct (status_eqb (d_st s1) SInit && _) eqn:E2; [now eexists _, _, _|].
      destruct (_ <=? _); [now eexists _, _, _|].
      assert (Q : d_keys s1 <> None /\ d_tabs s1 <> HdNull).
      { destruct (d_st s1) eqn:ST; [discriminate| |now apply WR|discriminate]. cbn [status_eqb andb] in E2.
        destruct (d_keys s1); [|discriminate]. destruct (d_tabs s1); [discriminate|split; discriminate|split; discriminate]. }
      destruct Q as (Q1 & Q2). destruct (d_keys s1) as [k|]; [|congruence].
      destruct (last_tables h) as [t|]; [|congruence]. destruct TK as (l & x & TT & KP & ->).
      destruct (greet_all_some (d_date s1) k x t l (d_users s1) TT KP) with (n := d_readers s1) as (((a & b) & c) & ->); [|now eexists _, _, _].
      eapply Forall_impl; [|exact (i_pat _ _ _ I)]. intros u (p & _ & D). cbn beta in D. rewrite divide_parts in D. injection D as _ <-. now eexists. }
    destruct RI as (s2 & og & f & -> & SB). destruct f; [|discriminate]. rewrite SB.
    destruct (pub_spec all_heads (d_subs s1) _ 0 n es (i_subs _ _ _ I) UC PE) as (out & -> & _). discriminate.
  - unfold do_sub. destruct (sstep_inv all_heads (d_subs s1) _ (RSub c true n) (i_subs _ _ _ I)) as (y & E1 & _).
    + cbn. split; [|reflexivity]. split; [now left|discriminate].
    + discriminate.
    + cbn [sreq_step] in E1. rewrite E1. destruct y. discriminate.
  - discriminate.
  - discriminate.
Qed.
Print Assumptions C79_safe_partial.

(** * examples and what does not hold *)
Fixpoint play (s : sdb) (cs : list scmd) : option (sdb * list (Z * heard)) :=
  match cs with
  | [] => Some (s, [])
  | c :: cs' =>
    match run_cmd s (s_mul (d_subs s)) c with
    | None => None
    | Some (s', o, _) => match play s' cs' with Some (s2, o2) => Some (s2, o ++ o2) | None => None end
    end
  end.
Lemma may_be_self s : may_be s s (s_mul (d_subs s)).
Proof. exists (d_users s). split; [reflexivity|]. split; [destruct s; reflexivity|reflexivity]. Qed.
Lemma play_history cs : forall h s o s' o', history h s o -> play s cs = Some (s', o') -> history (h ++ cs) s' (o ++ o').
Proof.
  induction cs as [|c cs IH]; intros h s o s' o' H E; cbn [play] in E.
  - injection E as <- <-. now rewrite !app_nil_r.
  - destruct (run_cmd s (s_mul (d_subs s)) c) as [[[s1 o1] b]|] eqn:R; [|discriminate].
    destruct (play s1 cs) as [[s2 o2]|] eqn:P; [|discriminate]. injection E as <- <-.
    pose proof (H_cmd h s o s _ c s1 o1 b H (may_be_self s) R) as H1. specialize (IH _ _ _ _ _ H1 P).
    rewrite <- !app_assoc in IH. exact IH.
Qed.
Lemma play_start cs s o : play sdb0 cs = Some (s, o) -> history cs s o.
Proof. intros E. exact (play_history cs [] sdb0 [] s o H_nil E). Qed.
Definition st_of (cs : list scmd) : sdb := match play sdb0 cs with Some (s, _) => s | None => sdb0 end.
Definition out_of (cs : list scmd) : list (Z * heard) := match play sdb0 cs with Some (_, o) => o | None => [] end.
Lemma played cs : (if play sdb0 cs then true else false) = true -> history cs (st_of cs) (out_of cs).
Proof. intros E. apply play_start. unfold st_of, out_of. destruct (play sdb0 cs) as [[s o]|]; [reflexivity|discriminate]. Qed.

Definition ex_keys : str := bs "sh600000,sh600001,sz000001"%string.
Definition ex_tables : str := map (fun c => if c =? 39 then 34 else c) (bs "{'stk':{'a':1},'min':{'b':2}}"%string).
Definition given : list scmd := [CKeys (Some ex_keys); CTables (Some ex_tables)].
Definition ex_day : list scmd :=
  given ++ [CSub 1 (bs "sh.stk"%string); CSub 2 (bs "*.*"%string); CStart 20261117; CPub (bs "sh600000.stk"%string);
            CSub 3 (bs "sz,sh600001.min,stk"%string); CPub (bs "sz000001.min"%string); CUnsub 2; CStop; CStart 20261118].
Lemma ex_table_text : table_text ex_tables [([115; 116; 107], JObj [([97], JNum [49])]); ([109; 105; 110], JObj [([98], JNum [50])])].
Proof.
  assert (NUM : forall c, 48 < c <= 57 -> numlex false [c]).
  { intros c C. split; [|intros _; cbn; split; intros [X|[]]; lia]. exists [], [c], [], []. split; [reflexivity|]. split; [now left|].
    split; [right; split; [split; [discriminate|repeat constructor; lia]|cbn; lia]|]. split; now left. }
  assert (KEY : forall k, forallb (fun c => (32 <=? c) && (c <? 256) && negb (c =? 34) && negb (c =? 92)) k = true -> k <> [] -> keylex false k k).
  { intros k F N. split; [|intros _; split; [exact N|intros J; apply plain_all in F; rewrite Forall_forall in F; specialize (F 92 J); unfold plain in F; lia]]. apply plain_all in F. clear N. induction F; constructor; trivial. }
  split; [|split; [|split; [|split; [vm_compute; reflexivity|]]]].
  - change ex_tables with (123 :: ([] ++ 34 :: [115; 116; 107] ++ 34 :: [] ++ 58 :: [] ++ ((123 :: ([] ++ 34 :: [97] ++ 34 :: [] ++ 58 :: [] ++ ([49] ++ [])) ++ [125]) ++ []) ++ 44 ::
      ([] ++ 34 :: [109; 105; 110] ++ 34 :: [] ++ 58 :: [] ++ ((123 :: ([] ++ 34 :: [98] ++ 34 :: [] ++ 58 :: [] ++ ([50] ++ [])) ++ [125]) ++ []))) ++ [125]).
    apply T_obj. apply M_cons; [constructor|now apply KEY|constructor|constructor| |].
    + apply I_val; [|constructor]. apply T_obj. apply M_last; [constructor|now apply KEY|constructor|constructor|].
      apply I_val; [|constructor]. apply T_num. apply NUM. lia.
    + apply M_last; [constructor|now apply KEY|constructor|constructor|].
      apply I_val; [|constructor]. apply T_obj. apply M_last; [constructor|now apply KEY|constructor|constructor|].
      apply I_val; [|constructor]. apply T_num. apply NUM. lia.
  - apply readable_obj. split; [cbn; tauto|].
    assert (ONE : forall k c, 48 < c <= 57 -> forallb (fun c => (32 <=? c) && (c <? 256) && negb (c =? 34) && negb (c =? 92)) k = true -> k <> [] -> readable (JObj [(k, JNum [c])])).
    { intros k c C F N. apply readable_obj. split; [cbn; tauto|]. constructor; [|constructor]. split; [exact N|]. split; [now apply plain_all|]. now apply NUM. }
    constructor; [|constructor; [|constructor]]; (split; [discriminate|split; [apply plain_all; reflexivity|]]); apply ONE; solve [lia|reflexivity|discriminate].
  - repeat constructor.
  - intros n S.
    set (m := JN 7 None None [JN 7 (Some [115; 116; 107]) None [JN 2 (Some [97]) (Some [49]) []]; JN 7 (Some [109; 105; 110]) None [JN 2 (Some [98]) (Some [50]) []]]).
    assert (E : n = m).
    { eapply shaped_unique; [exact S|]. unfold m. cbn. repeat split; right; split; try reflexivity; intros (a & d & b & X & _); destruct a as [|? [|? ?]]; discriminate. }
    rewrite E. split; [vm_compute; repeat split|]. intros x X. vm_compute in X. injection X as <-. vm_compute. reflexivity.
Qed.
Lemma day_facts cs : Forall (fun c => match c with CTables (Some t) => t = ex_tables | _ => True end) cs -> Forall with_tables cs.
Proof.
  intros F. eapply Forall_impl; [|exact F]. intros c C. destruct c as [i|[t|]|d| |n|c n|c|c]; try exact Logic.I. cbn in *. subst t. eexists. exact ex_table_text.
Qed.
(** three readers, two days: what each hears *)
Example C79_ok :
  history ex_day (st_of ex_day) (out_of ex_day) /\ orderly false ex_day /\ Forall usual ex_day /\ Forall with_tables ex_day /\
  day_open ex_day = true /\ last_keys ex_day = Some ex_keys /\ Forall (fun x => 32 < x) ex_keys /\
  to 1 (out_of ex_day) = [HStart 20261117; HKeys (bs "sh600000,sh600001"%string); HTables (map (fun c => if c =? 39 then 34 else c) (bs "{'stk':{'a':1}}"%string));
    HWait 20261117; HData (bs "sh600000.stk"%string); HStop 20261117] /\
  to 2 (out_of ex_day) = [HStart 20261117; HKeys ex_keys; HTables ex_tables;
    HWait 20261117; HData (bs "sh600000.stk"%string); HData (bs "sz000001.min"%string); HLeft] /\
  to 3 (out_of ex_day) = [HStart 20261117; HKeys (bs "sh600001,sz000001"%string); HTables ex_tables;
    HWait 20261117; HData (bs "sz000001.min"%string); HStop 20261117] /\
  match run_cmd (st_of ex_day) (s_mul (d_subs (st_of ex_day))) (CPub (bs "sh600001.stk"%string)) with
  | Some (_, o, b) => b = true /\ In (HStart 20261118) (to 1 o) /\ datas (to 3 o) = [bs "sh600001.stk"%string] /\ to 2 o = []
  | None => False
  end.
Proof.
  split; [apply played; vm_compute; reflexivity|]. split; [cbn; tauto|].
  split; [repeat (apply Forall_cons; [first [exact Logic.I|discriminate|vm_compute; repeat split; lia]|]); apply Forall_nil|].
  split; [apply day_facts; repeat (apply Forall_cons; [first [exact Logic.I|reflexivity]|]); apply Forall_nil|].
  split; [reflexivity|]. split; [reflexivity|]. split; [repeat (apply Forall_cons; [reflexivity|]); apply Forall_nil|].
  split; [vm_compute; reflexivity|]. split; [vm_compute; reflexivity|]. split; [vm_compute; reflexivity|].
  vm_compute. split; [reflexivity|]. split; [now left|]. split; reflexivity.
Qed.
Example C79_refused_ok : exists s' o',
  run_cmd (st_of [CStart 20261117; CKeys (Some ex_keys)]) [] (CPub (bs "sh600000.stk"%string)) = Some (s', o', false).
Proof. eexists _, _. vm_compute. reflexivity. Qed.

Ltac usual_all := repeat (apply Forall_cons; [first [exact Logic.I|discriminate|vm_compute; repeat split; lia]|]); apply Forall_nil.

(** a reader that subscribes while the day has no message hears the end of a day that never began for it *)
Theorem C79_stop_refuted : exists h s o c, history h s o /\ orderly false h /\ Forall usual h /\
  to c o = [HStop 20261117] /\ follow true PClosed (to c o) = None.
Proof.
  set (h := given ++ [CStart 20261117; CSub 1 (bs "sh.stk"%string); CStop]). exists h, (st_of h), (out_of h), 1.
  split; [apply played; vm_compute; reflexivity|]. split; [cbn; tauto|]. split; [usual_all|]. split; vm_compute; reflexivity.
Qed.
Print Assumptions C79_stop_refuted.

(** tables that cannot be read: the old text has been freed and is used by the greeting of the next
    publication, or freed again with the next tables *)
Theorem C79_bad_tables_refuted : exists h s o, history h s o /\ orderly false h /\ Forall usual h /\
  forall s1 es n i, may_be s s1 es -> run_cmd s1 es (CPub n) = None /\ run_cmd s1 es (CTables i) = None.
Proof.
  set (h := given ++ [CSub 1 (bs "sh.stk"%string); CStart 20261117; CTables (Some [])]). exists h, (st_of h), (out_of h).
  split; [apply played; vm_compute; reflexivity|]. split; [cbn; tauto|]. split; [usual_all|].
  intros s1 es n i (us & P & -> & PE).
  assert (E : d_users (st_of h) = [mkuser 1 SInit (Some (bs "sh"%string)) (Some (bs "stk"%string))]) by (vm_compute; reflexivity).
  rewrite E in P. apply Permutation_sym, Permutation_length_1_inv in P. subst us. split; [|vm_compute; reflexivity].
  vm_compute. reflexivity.
Qed.
Print Assumptions C79_bad_tables_refuted.

(** keys or tables without a content read the length at the null pointer *)
Theorem C79_no_content_refuted : forall s es, run_cmd s es (CKeys None) = None /\ run_cmd s es (CTables None) = None.
Proof. intros s es. split; [reflexivity|]. cbn. unfold set_tables. destruct (d_tabs s); reflexivity. Qed.
Print Assumptions C79_no_content_refuted.

(** messages are chosen by the beginnings of the names of tables, definitions only by whole names: data
    of a table whose definition the reader was not told *)
Theorem C79_heads_refuted : exists h s o c d k, history h s o /\ orderly false h /\ Forall usual h /\ Forall with_tables h /\
  first_pattern h c = Some (bs "sh.st"%string) /\
  to c o = [HStart d; HKeys k; HTables (bs "{}"%string); HWait d; HData (bs "sh600000.stk"%string)].
Proof.
  set (h := given ++ [CSub 1 (bs "sh.st"%string); CStart 20261117; CPub (bs "sh600000.stk"%string)]).
  exists h, (st_of h), (out_of h), 1, 20261117, (bs "sh600000,sh600001"%string).
  split; [apply played; vm_compute; reflexivity|]. split; [cbn; tauto|]. split; [usual_all|].
  split; [apply day_facts; repeat (apply Forall_cons; [first [exact Logic.I|reflexivity]|]); apply Forall_nil|]. split; vm_compute; reflexivity.
Qed.
Print Assumptions C79_heads_refuted.
(** .. and the same for every reader whose pattern has no point, also the star *)
Theorem C79_no_point_refuted : exists h s o d, history h s o /\ orderly false h /\ Forall usual h /\ Forall with_tables h /\
  first_pattern h 1 = Some (bs "sh"%string) /\ first_pattern h 2 = Some (bs "*"%string) /\
  to 1 o = [HStart d; HKeys (bs "sh600000,sh600001"%string); HTables (bs "{}"%string); HWait d; HData (bs "sh600000.stk"%string)] /\
  to 2 o = [HStart d; HKeys ex_keys; HTables (bs "{}"%string); HWait d; HData (bs "sh600000.stk"%string)].
Proof.
  set (h := given ++ [CSub 1 (bs "sh"%string); CSub 2 (bs "*"%string); CStart 20261117; CPub (bs "sh600000.stk"%string)]).
  exists h, (st_of h), (out_of h), 20261117.
  split; [apply played; vm_compute; reflexivity|]. split; [cbn; tauto|]. split; [usual_all|].
  split; [apply day_facts; repeat (apply Forall_cons; [first [exact Logic.I|reflexivity]|]); apply Forall_nil|].
  split; [reflexivity|]. split; [reflexivity|]. split; vm_compute; reflexivity.
Qed.
Print Assumptions C79_no_point_refuted.

(** a second subscription of a reader is delivered, but its keys and tables are never announced *)
Theorem C79_second_refuted : exists h s o d t, history h s o /\ orderly false h /\ Forall usual h /\ Forall with_tables h /\
  to 1 o = [HStart d; HKeys (bs "sh600000,sh600001"%string); HTables t; HWait d; HData (bs "sz000001.min"%string)].
Proof.
  set (h := given ++ [CSub 1 (bs "sh.stk"%string); CSub 1 (bs "sz.min"%string); CStart 20261117; CPub (bs "sz000001.min"%string)]).
  exists h, (st_of h), (out_of h), 20261117, (map (fun c => if c =? 39 then 34 else c) (bs "{'stk':{'a':1}}"%string)).
  split; [apply played; vm_compute; reflexivity|]. split; [cbn; tauto|]. split; [usual_all|].
  split; [apply day_facts; repeat (apply Forall_cons; [first [exact Logic.I|reflexivity]|]); apply Forall_nil|]. vm_compute. reflexivity.
Qed.
Print Assumptions C79_second_refuted.

(** keys given after the first message of a day are not announced to the readers at work *)
Theorem C79_late_keys_refuted : exists h s o d t, history h s o /\ orderly false h /\ Forall usual h /\ Forall with_tables h /\
  last_keys h = Some (bs "sh600000,sh600009"%string) /\
  to 1 o = [HStart d; HKeys (bs "sh600000,sh600001"%string); HTables t; HWait d; HData (bs "sh600000.stk"%string); HData (bs "sh600009.stk"%string)].
Proof.
  set (h := given ++ [CSub 1 (bs "sh.stk"%string); CStart 20261117; CPub (bs "sh600000.stk"%string);
    CKeys (Some (bs "sh600000,sh600009"%string)); CPub (bs "sh600009.stk"%string)]).
  exists h, (st_of h), (out_of h), 20261117, (map (fun c => if c =? 39 then 34 else c) (bs "{'stk':{'a':1}}"%string)).
  split; [apply played; vm_compute; reflexivity|]. split; [cbn; tauto|]. split; [usual_all|].
  split; [apply day_facts; repeat (apply Forall_cons; [first [exact Logic.I|reflexivity]|]); apply Forall_nil|]. split; [reflexivity|]. vm_compute. reflexivity.
Qed.
Print Assumptions C79_late_keys_refuted.

(** a new day keeps the keys and tables of the day before: a message that comes before the new ones is
    accepted, and announces the old ones for the new day *)
Theorem C79_old_keys_refuted : exists h h1 s o t, h = h1 ++ [CStart 20261118; CPub (bs "sh600000.stk"%string)] /\
  history h s o /\ orderly false h /\ Forall usual h /\ Forall with_tables h /\
  to 1 o = [HStart 20261117; HKeys (bs "sh600000,sh600001"%string); HTables t; HWait 20261117; HData (bs "sh600000.stk"%string); HStop 20261117;
            HStart 20261118; HKeys (bs "sh600000,sh600001"%string); HTables t; HWait 20261118; HData (bs "sh600000.stk"%string)].
Proof.
  set (h1 := CStart 20261117 :: given ++ [CSub 1 (bs "sh.stk"%string); CPub (bs "sh600000.stk"%string); CStop]).
  set (h := h1 ++ [CStart 20261118; CPub (bs "sh600000.stk"%string)]).
  exists h, h1, (st_of h), (out_of h), (map (fun c => if c =? 39 then 34 else c) (bs "{'stk':{'a':1}}"%string)). split; [reflexivity|].
  split; [apply played; vm_compute; reflexivity|]. split; [cbn; tauto|]. split; [usual_all|].
  split; [apply day_facts; repeat (apply Forall_cons; [first [exact Logic.I|reflexivity]|]); apply Forall_nil|]. vm_compute. reflexivity.
Qed.
Print Assumptions C79_old_keys_refuted.

(** a closed connection: the service has no command clear, so its number goes on being sent to - the next
    client that gets this number hears data without a start *)
Theorem C79_gone_refuted : exists h n s o, history h s o /\ orderly false h /\ short_name n /\
  wanted (in_force (requests h)) 1 n = O /\
  forall s1 es, may_be s s1 es -> exists s', run_cmd s1 es (CPub n) = Some (s', [(1, HData n)], true).
Proof.
  set (h := given ++ [CSub 1 (bs "sh.stk"%string); CStart 20261117; CPub (bs "sh600000.stk"%string); CGone 1]).
  exists h, (bs "sh600000.stk"%string), (st_of h), (out_of h).
  split; [apply played; vm_compute; reflexivity|]. split; [cbn; tauto|]. split; [vm_compute; repeat split; lia|]. split; [vm_compute; reflexivity|].
  intros s1 es (us & P & -> & PE).
  assert (E : d_users (st_of h) = [mkuser 1 SWork (Some (bs "sh"%string)) (Some (bs "stk"%string))]) by (vm_compute; reflexivity).
  rewrite E in P. apply Permutation_sym, Permutation_length_1_inv in P. subst us.
  assert (F : s_mul (d_subs (st_of h)) = [(bs "sh.stk"%string, mkunit MUL_CMP (Some (bs "sh"%string)) (Some (bs "stk"%string)) [1])]) by (vm_compute; reflexivity).
  rewrite F in PE. apply Permutation_sym, Permutation_length_1_inv in PE. subst es. eexists. vm_compute. reflexivity.
Qed.
Print Assumptions C79_gone_refuted.

(** a day that begins while another is open: the readers hear a second start without a stop *)
Theorem C79_restart_refuted : exists h s o, history h s o /\ Forall usual h /\ Forall with_tables h /\
  follow false PClosed (to 1 o) = None /\ filter (fun x => match x with HStart _ | HStop _ => true | _ => false end) (to 1 o) = [HStart 20261117; HStart 20261118].
Proof.
  set (h := given ++ [CSub 1 (bs "sh.stk"%string); CStart 20261117; CPub (bs "sh600000.stk"%string); CStart 20261118; CPub (bs "sh600000.stk"%string)]).
  exists h, (st_of h), (out_of h).
  split; [apply played; vm_compute; reflexivity|]. split; [usual_all|].
  split; [apply day_facts; repeat (apply Forall_cons; [first [exact Logic.I|reflexivity]|]); apply Forall_nil|]. split; vm_compute; reflexivity.
Qed.
Print Assumptions C79_restart_refuted.
