(** Lemmas on the service of a day's data. *)
From Coq Require Import ZArith List Bool Lia ZifyBool ZifyNat Sorting.Permutation.
From Verif Require Import Base S_server M_server L_map S_sub M_sub L_sub P_sub S_json M_json S_kdict M_kdict S_subdb M_subdb.
Import ListNotations.
Open Scope list_scope.
Open Scope Z_scope.

Definition is_user (c : Z) (u : user) : bool := u_cid u =? c.
Definition works (c : Z) (u : user) : bool := (u_cid u =? c) && status_eqb (u_st u) SWork.
Definition at_work (us : list user) : nat := List.length (filter (fun u => status_eqb (u_st u) SWork) us).
Definition phase_of (s : sdb) (c : Z) : phase := if existsb (works c) (d_users s) then POpen (d_date s) else PClosed.
Definition st_ok (d x : status) : Prop :=
  match d with SNone | SStop => x = SInit \/ x = SStop | SInit => x = SInit | SWork => x = SInit \/ x = SWork end.
Definition open_st (d : status) : bool := match d with SInit | SWork => true | _ => false end.
Definition all_heads : str -> bool := fun _ => true.

Record inv (h : list scmd) (s : sdb) (o : list (Z * heard)) : Prop := mkinv {
  i_nodup : NoDup (map u_cid (d_users s));
  i_count : d_readers s <= Z.of_nat (at_work (d_users s));
  i_stat : Forall (fun u => st_ok (d_st s) (u_st u)) (d_users s);
  i_open : day_open h = open_st (d_st s);
  i_date : d_date s = day_date h;
  i_subs : sinv all_heads (d_subs s) (in_force (requests h));
  i_known : forall a, In a (in_force (requests h)) -> existsb (is_user (fst (fst a))) (d_users s) = true;
  i_reader : forall c, reader h c = existsb (is_user c) (d_users s);
  i_pat : Forall (fun u => exists p, first_pattern h (u_cid u) = Some p /\ divide_sds p [] = (u_subk u, u_subt u)) (d_users s);
  i_nopat : forall c, existsb (is_user c) (d_users s) = false -> first_pattern h c = None;
  i_keys : d_keys s = last_keys h;
  i_follow : forall c, follow false PClosed (to c o) = Some (phase_of s c) }.

(** * small facts *)
Lemma seqb_iff a b : status_eqb a b = true <-> a = b.
Proof. destruct a, b; cbn; split; congruence. Qed.
Lemma existsb_perm (A : Type) (f : A -> bool) l l' : Permutation l l' -> existsb f l = existsb f l'.
Proof.
  intros P. apply eq_true_iff_eq. rewrite !existsb_exists. split; intros (x & I & E); exists x; split; trivial.
  - now apply (Permutation_in _ P).
  - now apply (Permutation_in _ (Permutation_sym P)).
Qed.
Lemma filter_perm (A : Type) (f : A -> bool) l l' : Permutation l l' -> List.length (filter f l) = List.length (filter f l').
Proof.
  induction 1 as [|x l l' P IH|x y l|l m n P1 I1 P2 I2]; cbn; trivial.
  - destruct (f x); cbn; congruence.
  - destruct (f x), (f y); reflexivity.
  - congruence.
Qed.
Lemma follow_app st l : forall p l', follow st p (l ++ l') = match follow st p l with Some q => follow st q l' | None => None end.
Proof. induction l as [|x l IH]; intros p l'; cbn; trivial. destruct (next st p x); trivial. Qed.
Lemma to_app c o o' : to c (o ++ o') = to c o ++ to c o'.
Proof. unfold to. now rewrite filter_app, map_app. Qed.
Lemma fold_snoc (A B : Type) (f : A -> B -> A) l x a : fold_left f (l ++ [x]) a = f (fold_left f l a) x.
Proof. rewrite fold_left_app. reflexivity. Qed.
Lemma orderly_snoc h c : forall b, orderly b (h ++ [c]) ->
  orderly b h /\ (forall d, c = CStart d ->
    fold_left (fun b c => match c with CStart _ => true | CStop => false | _ => b end) h b = false).
Proof.
  induction h as [|x h IH]; intros b O.
  - cbn in *. split; trivial. intros d ->. tauto.
  - cbn [app orderly fold_left] in *. destruct x; try (apply IH; exact O).
    destruct O as (E & O). destruct (IH _ O) as (A & B). split; [split; trivial|trivial].
Qed.
Lemma requests_snoc h c : requests (h ++ [c]) = requests h ++ requests [c].
Proof. unfold requests. now rewrite flat_map_app. Qed.

Lemma inv_perm h s o us : inv h s o -> Permutation us (d_users s) -> inv h (set_users s us) o.
Proof.
  intros I P. destruct I. constructor; cbn [set_users d_users d_st d_date d_readers d_keys d_subs]; trivial.
  - apply (Permutation_NoDup (l := map u_cid (d_users s))); trivial. apply Permutation_map. now symmetry.
  - unfold at_work in *. rewrite (filter_perm _ _ _ _ P). trivial.
  - eapply Permutation_Forall; [symmetry; exact P|trivial].
  - intros a A. rewrite (existsb_perm _ _ _ _ P). auto.
  - intros c. rewrite (existsb_perm _ _ _ _ P). auto.
  - eapply Permutation_Forall; [symmetry; exact P|trivial].
  - intros c. rewrite (existsb_perm _ _ _ _ P). auto.
  - intros c. unfold phase_of in *. cbn [set_users d_users d_date]. rewrite (existsb_perm _ _ _ _ P). auto.
Qed.

(** * greeting *)
Definition begin (u : user) : user := if status_eqb (u_st u) SInit then set_st SWork u else u.
Definition fresh (c : Z) (u : user) : bool := (u_cid u =? c) && status_eqb (u_st u) SInit.
Lemma greet_to date keys tabs u o c : greet date keys tabs u = Some o -> to c o = if u_cid u =? c then map snd o else [].
Proof.
  unfold greet. destruct keys as [k|]; [|discriminate]. destruct tabs as [|t|]; try discriminate.
  destruct (match_sdb (u_subt u) t) as [[|x|]|]; try discriminate. intros [= <-]. unfold to.
  destruct (match_key (u_subk u) k) as [y|]; cbn [app filter fst]; destruct (u_cid u =? c); reflexivity.
Qed.
Lemma greet_follow st date keys tabs u o : greet date keys tabs u = Some o -> follow st PClosed (map snd o) = Some (POpen date).
Proof.
  unfold greet. destruct keys as [k|]; [|discriminate]. destruct tabs as [|t|]; try discriminate.
  destruct (match_sdb (u_subt u) t) as [[|x|]|]; try discriminate. intros [= <-].
  destruct (match_key (u_subk u) k) as [y|]; cbn; rewrite Z.eqb_refl; reflexivity.
Qed.
Lemma greet_all_spec date keys tabs us : forall n us' n' o, greet_all date keys tabs us n = Some (us', n', o) ->
  us' = map begin us /\ n' = n + Z.of_nat (List.length (filter (fun u => status_eqb (u_st u) SInit) us)) /\
  (forall c, ~ In c (map u_cid us) -> to c o = []) /\
  (NoDup (map u_cid us) -> forall c u, In u us -> u_cid u = c -> if status_eqb (u_st u) SInit then
     exists o1, greet date keys tabs u = Some o1 /\ to c o = map snd o1 else to c o = []).
Proof.
  induction us as [|u us IH]; intros n us' n' o E.
  - cbn in E. injection E as <- <- <-. split; [reflexivity|split; [cbn; lia|split; [reflexivity|intros _ c u []]]].
  - cbn [greet_all] in E. destruct (status_eqb (u_st u) SInit) eqn:SI.
    + destruct (greet date keys tabs u) as [o1|] eqn:G; [|discriminate].
      destruct (greet_all date keys tabs us (n + 1)) as [[[r m] o2]|] eqn:R; [|discriminate]. injection E as <- <- <-.
      destruct (IH _ _ _ _ R) as (A & B & C & D). split; [cbn [map]; unfold begin at 1; now rewrite SI, A|].
      split; [cbn [filter]; rewrite SI; cbn [List.length]; lia|]. split.
      * intros c N. rewrite to_app, (greet_to _ _ _ _ _ c G). cbn [map In] in N. replace (u_cid u =? c) with false by lia.
        cbn. apply C. tauto.
      * intros ND c v J K. inversion ND as [|? ? X Y]; subst. rewrite to_app, (greet_to _ _ _ _ _ _ G). destruct J as [->|J].
        -- rewrite SI, Z.eqb_refl. exists o1. split; trivial. rewrite C, app_nil_r by trivial. reflexivity.
        -- assert (u_cid u <> u_cid v). { intros W. apply X. rewrite W. now apply in_map. }
           replace (u_cid u =? u_cid v) with false by lia. cbn [app]. now apply D.
    + destruct (greet_all date keys tabs us n) as [[[r m] o2]|] eqn:R; [|discriminate]. injection E as <- <- <-.
      destruct (IH _ _ _ _ R) as (A & B & C & D). split; [cbn [map]; unfold begin at 1; now rewrite SI, A|].
      split; [cbn [filter]; rewrite SI; lia|]. split.
      * intros c N. cbn [map In] in N. apply C. tauto.
      * intros ND c v J K. inversion ND as [|? ? X Y]; subst. destruct J as [->|J].
        -- rewrite SI. now apply C.
        -- now apply D.
Qed.
Lemma begin_cid us : map u_cid (map begin us) = map u_cid us.
Proof. rewrite map_map. apply map_ext. intros u. unfold begin. destruct (status_eqb (u_st u) SInit); reflexivity. Qed.
Lemma begin_user c us : existsb (is_user c) (map begin us) = existsb (is_user c) us.
Proof.
  induction us as [|u us IH]; cbn; trivial. rewrite IH. f_equal. unfold is_user, begin. destruct (status_eqb (u_st u) SInit); reflexivity.
Qed.
Lemma all_work us : Forall (fun u => u_st u = SWork) us -> forall c, existsb (works c) us = existsb (is_user c) us.
Proof.
  induction 1 as [|u us E F IH]; intros c; cbn; trivial. rewrite IH. unfold works, is_user. rewrite E. cbn. now rewrite andb_true_r.
Qed.
Lemma at_work_all us : Z.of_nat (List.length us) <= Z.of_nat (at_work us) -> Forall (fun u => u_st u = SWork) us.
Proof.
  unfold at_work. assert (L : forall us, (List.length (filter (fun u => status_eqb (u_st u) SWork) us) <= List.length us)%nat).
  { clear. induction us as [|u us IH]; cbn; [lia|]. destruct (status_eqb (u_st u) SWork); cbn; lia. }
  induction us as [|u us IH]; cbn [List.length filter]; intros H; [constructor|]. specialize (L us).
  destruct (status_eqb (u_st u) SWork) eqn:E; cbn [List.length] in H; [|lia]. constructor; [now apply seqb_iff|apply IH; lia].
Qed.
Lemma all_at_work us : Forall (fun u => u_st u = SWork) us -> at_work us = List.length us.
Proof. unfold at_work. induction 1 as [|u us E F IH]; cbn; trivial. rewrite E. cbn. now rewrite IH. Qed.
Lemma user_in c us : existsb (is_user c) us = true -> exists u, In u us /\ u_cid u = c.
Proof. intros E. apply existsb_exists in E. destruct E as (u & I & E). unfold is_user in E. exists u. split; trivial. lia. Qed.
Lemma in_user c us u : In u us -> u_cid u = c -> existsb (is_user c) us = true.
Proof. intros I E. apply existsb_exists. exists u. split; trivial. unfold is_user. lia. Qed.
Lemma nodup_user us u v : NoDup (map u_cid us) -> In u us -> In v us -> u_cid u = u_cid v -> u = v.
Proof.
  induction us as [|x us IH]; cbn; [tauto|]. intros ND [A|A] [B|B] E; inversion ND as [|? ? X Y]; subst; trivial.
  - exfalso. apply X. rewrite E. now apply in_map.
  - exfalso. apply X. rewrite <- E. now apply in_map.
  - now apply IH.
Qed.
Lemma works_of us u c : NoDup (map u_cid us) -> In u us -> u_cid u = c -> existsb (works c) us = status_eqb (u_st u) SWork.
Proof.
  intros ND I E. apply eq_true_iff_eq. rewrite existsb_exists. unfold works. split.
  - intros (v & J & K). apply andb_true_iff in K. destruct K as (K & L). assert (v = u) by (apply (nodup_user us); trivial; lia). now subst.
  - intros S. exists u. split; trivial. rewrite S. lia.
Qed.
Lemma no_works us c : existsb (is_user c) us = false -> existsb (works c) us = false.
Proof.
  intros E. apply not_true_iff_false. intros X. apply existsb_exists in X. destruct X as (u & I & W). unfold works in W.
  apply not_true_iff_false in E. apply E. apply (in_user c us u I). lia.
Qed.

(** the greeting: every reader is at work, and each stream is at its open phase *)
Lemma reader_init_spec h s o s' o' : inv h s o -> reader_init s = Some (s', o', true) ->
  inv h s' (o ++ o') /\ d_st s' = SWork /\ Forall (fun u => u_st u = SWork) (d_users s') /\ d_subs s' = d_subs s /\ d_tabs s' = d_tabs s /\
  (forall c, to c o' = [] \/ exists u o1, In u (d_users s) /\ u_cid u = c /\ u_st u = SInit /\
     greet (d_date s) (d_keys s) (d_tabs s) u = Some o1 /\ to c o' = map snd o1).
Proof.
  intros I E. unfold reader_init in E.
  destruct (status_eqb (d_st s) SStop || status_eqb (d_st s) SNone) eqn:E1; [discriminate|].
  destruct (status_eqb (d_st s) SInit && _) eqn:E2; [discriminate|]. clear E2.
  assert (OP : open_st (d_st s) = true) by (destruct (d_st s); trivial; discriminate).
  pose proof (i_stat _ _ _ I) as ST.
  assert (ST' : Forall (fun u => u_st u = SInit \/ u_st u = SWork) (d_users s)).
  { eapply Forall_impl; [|exact ST]. intros u K. cbn in K. destruct (d_st s); cbn in K; tauto || discriminate. }
  destruct (Z.of_nat (List.length (d_users s)) <=? d_readers s) eqn:E3.
  - injection E as <- <-. pose proof (i_count _ _ _ I) as CT. assert (AW : Forall (fun u => u_st u = SWork) (d_users s)) by (apply at_work_all; lia).
    split; [|split; [reflexivity|split; [exact AW|split; [reflexivity|split; [reflexivity|intros c; now left]]]]].
    destruct I. constructor; cbn [d_users d_st d_date d_readers d_keys d_subs]; trivial.
    + now rewrite i_open0.
    + rewrite app_nil_r. exact i_follow0.
  - destruct (greet_all (d_date s) (d_keys s) (d_tabs s) (d_users s) (d_readers s)) as [[[us n] o1]|] eqn:G; [|discriminate].
    injection E as <- <-. destruct (greet_all_spec _ _ _ _ _ _ _ _ G) as (A & B & C & D). subst us.
    assert (AW : Forall (fun u => u_st u = SWork) (map begin (d_users s))).
    { apply Forall_forall. intros u K. apply in_map_iff in K. destruct K as (v & <- & K). rewrite Forall_forall in ST'.
      unfold begin. destruct (ST' v K) as [W|W]; rewrite W; [reflexivity|exact W]. }
    cbn [d_st d_users d_subs d_tabs]. split; [|split; [reflexivity|split; [exact AW|split; [reflexivity|split; [reflexivity|]]]]].
    + pose proof (i_nodup _ _ _ I) as ND. specialize (D ND). destruct I. constructor; cbn [d_users d_st d_date d_readers d_keys d_subs]; trivial.
      * now rewrite begin_cid.
      * rewrite all_at_work by trivial. rewrite map_length.
        assert (Z.of_nat (at_work (d_users s)) + Z.of_nat (List.length (filter (fun u => status_eqb (u_st u) SInit) (d_users s))) <= Z.of_nat (List.length (d_users s))).
        { clear. unfold at_work. induction (d_users s) as [|u l IH]; [cbn; lia|]. cbn [filter]. destruct (u_st u); cbn [status_eqb List.length]; lia. }
        lia.
      * eapply Forall_impl; [|exact AW]. intros u K. now right.
      * now rewrite i_open0.
      * intros a K. rewrite begin_user. auto.
      * intros c. rewrite begin_user. auto.
      * apply Forall_forall. intros u K. apply in_map_iff in K. destruct K as (v & <- & K). rewrite Forall_forall in i_pat0.
        specialize (i_pat0 v K). unfold begin. destruct (status_eqb (u_st v) SInit); exact i_pat0.
      * intros c. rewrite begin_user. auto.
      * intros c. rewrite to_app, follow_app, i_follow0. unfold phase_of. cbn [d_users d_date]. rewrite (all_work _ AW), begin_user.
        destruct (existsb (is_user c) (d_users s)) eqn:U.
        -- destruct (user_in c _ U) as (u & J & K). rewrite (works_of _ u c ND J K). specialize (D c u J K).
           rewrite Forall_forall in ST'. destruct (ST' u J) as [W|W]; rewrite W in *; cbn [status_eqb] in *.
           ++ destruct D as (o2 & D1 & ->). exact (greet_follow _ _ _ _ _ _ D1).
           ++ rewrite D. reflexivity.
        -- rewrite no_works by trivial. rewrite C; [reflexivity|]. intros X. apply in_map_iff in X. destruct X as (u & K & J).
           rewrite (in_user c _ u J K) in U. discriminate.
    + intros c. pose proof (i_nodup _ _ _ I) as ND. specialize (D ND). destruct (existsb (is_user c) (d_users s)) eqn:U.
      * destruct (user_in c _ U) as (u & J & K). specialize (D c u J K). destruct (status_eqb (u_st u) SInit) eqn:SI; [|now left].
        destruct D as (o2 & D1 & D2). right. exists u, o2. apply seqb_iff in SI. auto.
      * left. apply C. intros X. apply in_map_iff in X. destruct X as (u & K & J). rewrite (in_user c _ u J K) in U. discriminate.
Qed.
Lemma reader_init_refused s s' o' : reader_init s = Some (s', o', false) -> s' = s /\ o' = [] /\
  (open_st (d_st s) = false \/ d_st s = SInit /\ (d_keys s = None \/ d_tabs s = HdNull)).
Proof.
  unfold reader_init. intros E. destruct (status_eqb (d_st s) SStop || status_eqb (d_st s) SNone) eqn:E1.
  - injection E as <- <-. split; trivial. split; trivial. left. destruct (d_st s); trivial; discriminate.
  - destruct (status_eqb (d_st s) SInit && _) eqn:E2.
    + injection E as <- <-. split; trivial. split; trivial. right. apply andb_true_iff in E2. destruct E2 as (A & B).
      apply seqb_iff in A. split; trivial. destruct (d_keys s); [|now left]. destruct (d_tabs s); try discriminate. now right.
    + destruct (Z.of_nat (List.length (d_users s)) <=? d_readers s); [discriminate|].
      destruct (greet_all (d_date s) (d_keys s) (d_tabs s) (d_users s) (d_readers s)) as [[[us n] o1]|]; discriminate.
Qed.
Lemma inv_after h s o c : inv h s o ->
  match c with CKeys (Some _) | CStart _ | CStop | CSub _ _ | CUnsub _ | CGone _ => False | _ => True end ->
  inv (h ++ [c]) s o.
Proof.
  intros I K. destruct I. constructor; trivial; unfold day_open, day_date, reader, first_pattern, last_keys in *.
  - rewrite fold_snoc. destruct c; trivial; contradiction.
  - rewrite fold_snoc. destruct c; trivial; contradiction.
  - rewrite requests_snoc. destruct c; try contradiction; cbn; now rewrite app_nil_r.
  - rewrite requests_snoc. destruct c; try contradiction; cbn; now rewrite app_nil_r.
  - intros d. rewrite fold_snoc. destruct c; auto; contradiction.
  - eapply Forall_impl; [|exact i_pat0]. intros u P. cbn in P. rewrite fold_snoc. destruct c; trivial; contradiction.
  - intros d D. rewrite fold_snoc. destruct c; auto; contradiction.
  - rewrite fold_snoc. destruct c as [[|]| | | | | | |]; trivial; contradiction.
Qed.
Lemma to_data c n l : to c (map (fun c => (c, HData n)) l) = repeat (HData n) (count_occ Z.eq_dec l c).
Proof.
  unfold to. induction l as [|x l IH]; cbn; trivial. destruct (Z.eq_dec x c) as [->|N].
  - rewrite Z.eqb_refl. cbn. now rewrite IH.
  - replace (x =? c) with false by lia. exact IH.
Qed.
Lemma follow_data st d n k : follow st (POpen d) (repeat (HData n) k) = Some (POpen d).
Proof. induction k as [|k IH]; cbn; trivial. Qed.
Lemma wanted_in A c s : wanted A c s <> O -> exists a, In a A /\ fst (fst a) = c.
Proof.
  unfold wanted. induction A as [|[[c' h] p] A IH]; cbn; [congruence|]. intros W.
  destruct ((c' =? c) && covers h p s) eqn:E.
  - exists (c', h, p). split; [now left|]. cbn. lia.
  - destruct (IH W) as (a & I & K). exists a. auto.
Qed.
Lemma pub_inv h s o es n s' o' b : inv h s o -> short_name n -> Permutation es (s_mul (d_subs s)) -> do_pub s es n = Some (s', o', b) ->
  inv h s' (o ++ o').
Proof.
  intros I SN P E. unfold do_pub in E. destruct (reader_init s) as [[[s1 o1] [|]]|] eqn:R; [| |discriminate].
  - destruct (reader_init_spec _ _ _ _ _ I R) as (I1 & W & AW & SB & _ & _).
    destruct (cxt_pub (d_subs s1) es n) as [l|] eqn:C; [|discriminate]. injection E as <- <- <-.
    destruct I1. constructor; trivial. intros c. rewrite app_assoc, to_app, follow_app, i_follow0. rewrite to_data.
    rewrite SB in *. destruct (pub_spec all_heads (d_subs s) _ c n es i_subs0 SN P) as (out & E1 & E2). rewrite C in E1. injection E1 as <-.
    rewrite E2. destruct (wanted (in_force (requests h)) c n) as [|k] eqn:WN.
    + reflexivity.
    + destruct (wanted_in (in_force (requests h)) c n) as (a & J & K); [lia|]. specialize (i_known0 a J). rewrite K in i_known0.
      unfold phase_of. rewrite all_work, i_known0 by trivial. apply follow_data.
  - injection E as <- <- <-. destruct (reader_init_refused _ _ _ R) as (-> & -> & _). now rewrite app_nil_r.
Qed.

(** * subscriptions *)
Lemma in_force_snoc h c : in_force (requests (h ++ [c])) = fold_left in_force_step (requests [c]) (in_force (requests h)).
Proof. unfold in_force. rewrite requests_snoc, fold_left_app. reflexivity. Qed.
Lemma sub_keeps s c p x n : sinv all_heads (d_subs s) x -> cxt_sub (d_subs s) c true p = Some n ->
  sinv all_heads (fst n) (in_force_step x (RSub c true p)).
Proof.
  intros I E. destruct (sstep_inv all_heads (d_subs s) x (RSub c true p) I) as (y & E1 & I1); [|discriminate|].
  - cbn. split; [|reflexivity]. split; [now left|discriminate].
  - cbn [sreq_step] in E1. rewrite E in E1. injection E1 as ->. exact I1.
Qed.
Lemma in_step_sub A c p a : In a (in_force_step A (RSub c true p)) -> In a A \/ fst (fst a) = c.
Proof.
  cbn. destruct p as [|x p]; [now left|]. destruct (existsb _ A); [now left|]. intros I. apply in_app_or in I.
  destruct I as [I|[<-|[]]]; [now left|now right].
Qed.
Lemma is_user_app c us u : existsb (is_user c) (us ++ [u]) = existsb (is_user c) us || is_user c u.
Proof. rewrite existsb_app. cbn. now rewrite orb_false_r. Qed.
Lemma is_user_filter c d us : existsb (is_user c) (filter (fun u => negb (u_cid u =? d)) us) = existsb (is_user c) us && negb (d =? c).
Proof.
  induction us as [|u us IH]; cbn; trivial. destruct (u_cid u =? d) eqn:E; cbn [negb existsb].
  - rewrite IH. unfold is_user at 2. destruct (d =? c) eqn:F; cbn; [now rewrite !andb_false_r|]. replace (u_cid u =? c) with false by lia. reflexivity.
  - rewrite IH. unfold is_user at 1 3. destruct (u_cid u =? c) eqn:F; cbn; trivial. replace (d =? c) with false by lia. reflexivity.
Qed.
Lemma sub_inv h s o c p s' : inv h s o -> c <> -1 -> do_sub s c p = Some s' -> inv (h ++ [CSub c p]) s' o.
Proof.
  intros I N E. unfold do_sub in E. destruct (cxt_sub (d_subs s) c true p) as [[x m]|] eqn:C; [|discriminate]. injection E as <-.
  pose proof (sub_keeps _ _ _ _ _ (i_subs _ _ _ I) C) as SV. cbn [fst] in SV.
  assert (U : forall d, existsb (is_user d) (incr (d_users s) c p) = existsb (is_user d) (d_users s) || (c =? d)).
  { intros d. unfold incr. destruct (existsb (fun u => u_cid u =? c) (d_users s)) eqn:X.
    - destruct (c =? d) eqn:F; [|now rewrite orb_false_r]. rewrite orb_true_r. assert (c = d) by lia. subst d. exact X.
    - destruct (divide_sds p []) as (k, t). rewrite is_user_app. reflexivity. }
  destruct I. unfold day_open, day_date, reader, first_pattern, last_keys in *.
  constructor; cbn [d_users d_st d_date d_readers d_keys d_subs]; unfold day_open, day_date, reader, first_pattern, last_keys; trivial.
  - unfold incr. destruct (existsb (fun u => u_cid u =? c) (d_users s)) eqn:X; trivial. destruct (divide_sds p []) as (k, t).
    rewrite map_app. cbn. apply NoDup_snoc; trivial. intros J. apply in_map_iff in J. destruct J as (u & K & J).
    pose proof (in_user c _ u J K) as Y. unfold is_user in Y. rewrite Y in X. discriminate.
  - unfold incr. destruct (existsb (fun u => u_cid u =? c) (d_users s)); trivial. destruct (divide_sds p []) as (k, t).
    unfold at_work in *. rewrite filter_app. cbn. now rewrite app_nil_r.
  - unfold incr. destruct (existsb (fun u => u_cid u =? c) (d_users s)); trivial. destruct (divide_sds p []) as (k, t).
    apply Forall_app. split; trivial. constructor; [|constructor]. destruct (d_st s); cbn; auto.
  - rewrite fold_snoc. trivial.
  - rewrite fold_snoc. trivial.
  - rewrite in_force_snoc. exact SV.
  - intros a J. rewrite in_force_snoc in J. rewrite U. apply in_step_sub in J. destruct J as [J|J].
    + rewrite i_known0; trivial.
    + rewrite J, Z.eqb_refl. apply orb_true_r.
  - intros d. rewrite fold_snoc, U, i_reader0. reflexivity.
  - unfold incr. destruct (existsb (fun u => u_cid u =? c) (d_users s)) eqn:X.
    + eapply Forall_impl; [|exact i_pat0]. intros u (q & Q1 & Q2). exists q. rewrite fold_snoc, Q1. split; [|trivial]. destruct (c =? u_cid u); reflexivity.
    + destruct (divide_sds p []) as (k, t) eqn:DV. apply Forall_app. split.
      * eapply Forall_impl; [|exact i_pat0]. intros u (q & Q1 & Q2). exists q. rewrite fold_snoc, Q1. split; [|trivial]. destruct (c =? u_cid u); reflexivity.
      * constructor; [|constructor]. cbn [u_cid u_subk u_subt]. exists p. rewrite fold_snoc, Z.eqb_refl. rewrite i_nopat0; [auto|]. exact X.
  - intros d D. rewrite U in D. apply orb_false_iff in D. destruct D as (D1 & D2). rewrite fold_snoc, D2. now apply i_nopat0.
  - rewrite fold_snoc. trivial.
  - intros d. rewrite i_follow0. f_equal. unfold phase_of. cbn [d_users d_date]. unfold incr.
    destruct (existsb (fun u => u_cid u =? c) (d_users s)); trivial. destruct (divide_sds p []) as (k, t). rewrite existsb_app.
    cbn. unfold works. cbn. now rewrite andb_false_r, !orb_false_r.
Qed.
Lemma unsub_inv h s o c : inv h s o -> c <> -1 -> inv (h ++ [CUnsub c]) (do_unsub s c) (o ++ [(c, HLeft)]).
Proof.
  intros I N.
  assert (SV : sinv all_heads (fst (cxt_unsub (d_subs s) c)) (in_force_step (in_force (requests h)) (RUnsub c))).
  { destruct (sstep_inv all_heads (d_subs s) _ (RUnsub c) (i_subs _ _ _ I)) as (y & E1 & I1); [exact Logic.I|congruence|].
    cbn [sreq_step] in E1. injection E1 as E1. rewrite E1. exact I1. }
  assert (U : forall d, existsb (is_user d) (d_users (do_unsub s c)) = existsb (is_user d) (d_users s) && negb (c =? d)).
  { intros d. unfold do_unsub. destruct (existsb (fun u => u_cid u =? c) (d_users s)) eqn:X; cbn [d_users].
    - apply is_user_filter.
    - destruct (c =? d) eqn:F; [|now rewrite andb_true_r]. assert (c = d) by lia. subst d. rewrite andb_false_r. exact X. }
  assert (US : d_users (do_unsub s c) = filter (fun u => negb (u_cid u =? c)) (d_users s)).
  { unfold do_unsub. destruct (existsb (fun u => u_cid u =? c) (d_users s)) eqn:X; trivial. cbn [d_users].
    clear - X. induction (d_users s) as [|u l IH]; cbn in *; trivial. apply orb_false_iff in X. destruct X as (X1 & X2). rewrite X1. cbn. now rewrite <- IH. }
  assert (OT : d_st (do_unsub s c) = d_st s /\ d_date (do_unsub s c) = d_date s /\ d_keys (do_unsub s c) = d_keys s /\
    d_subs (do_unsub s c) = fst (cxt_unsub (d_subs s) c)).
  { unfold do_unsub. destruct (existsb (fun u => u_cid u =? c) (d_users s)); auto. }
  destruct OT as (O1 & O2 & O3 & O4).
  destruct I. unfold day_open, day_date, reader, first_pattern, last_keys in *.
  constructor; rewrite ?O1, ?O2, ?O3, ?O4; unfold day_open, day_date, reader, first_pattern, last_keys; try (rewrite fold_snoc; trivial; fail).
  - rewrite US. clear - i_nodup0. induction (d_users s) as [|u l IH]; cbn in *; trivial. inversion i_nodup0 as [|? ? A B]; subst.
    destruct (negb (u_cid u =? c)); [|auto]. cbn. constructor; [|auto]. intros X. apply A. apply in_map_iff in X. destruct X as (v & E & J).
    apply filter_In in J. rewrite <- E. now apply in_map.
  - rewrite US. unfold do_unsub. destruct (existsb (fun u => u_cid u =? c) (d_users s)) eqn:X; cbn [d_readers].
    + assert (G : Z.of_nat (at_work (d_users s)) - 1 <= Z.of_nat (at_work (filter (fun u => negb (u_cid u =? c)) (d_users s)))).
      { clear - i_nodup0. unfold at_work. induction (d_users s) as [|u l IH]; cbn [filter List.length]; [lia|]. inversion i_nodup0 as [|? ? A B]; subst.
        specialize (IH B). destruct (u_cid u =? c) eqn:F; cbn [negb].
        - assert (Q : filter (fun u0 => negb (u_cid u0 =? c)) l = l).
          { clear - A F. induction l as [|v l IH]; cbn; trivial. cbn in A. replace (u_cid v =? c) with false by lia. cbn. rewrite IH; tauto. }
          rewrite Q. destruct (status_eqb (u_st u) SWork); cbn [List.length]; lia.
        - cbn [filter]. destruct (status_eqb (u_st u) SWork); cbn [List.length]; lia. }
      lia.
    + replace (filter (fun u => negb (u_cid u =? c)) (d_users s)) with (d_users s); trivial.
      clear - X. induction (d_users s) as [|u l IH]; cbn in *; trivial. apply orb_false_iff in X. destruct X as (X1 & X2). rewrite X1. cbn. now rewrite <- IH.
  - rewrite US. apply Forall_forall. intros u J. apply filter_In in J. rewrite Forall_forall in i_stat0. now apply i_stat0.
  - rewrite in_force_snoc. exact SV.
  - intros a J. rewrite in_force_snoc in J. cbn in J. replace (c =? -1) with false in J by lia. unfold drop_client in J. apply filter_In in J.
    destruct J as (J & K). rewrite U, i_known0 by trivial. cbn. lia.
  - intros d. rewrite fold_snoc, U, i_reader0. reflexivity.
  - rewrite US. apply Forall_forall. intros u J. apply filter_In in J. destruct J as (J & K). rewrite Forall_forall in i_pat0.
    destruct (i_pat0 u J) as (q & Q1 & Q2). exists q. rewrite fold_snoc, Q1. split; trivial. replace (c =? u_cid u) with false by lia. reflexivity.
  - intros d D. rewrite U in D. rewrite fold_snoc. destruct (c =? d) eqn:F; trivial. cbn in D. rewrite andb_true_r in D. auto.
  - intros d. rewrite to_app, follow_app, i_follow0. unfold phase_of. rewrite O2, US.
    assert (W : existsb (works d) (filter (fun u => negb (u_cid u =? c)) (d_users s)) = existsb (works d) (d_users s) && negb (c =? d)).
    { clear. induction (d_users s) as [|u l IH]; cbn; trivial. destruct (u_cid u =? c) eqn:E; cbn [negb existsb].
      - rewrite IH. unfold works at 2. destruct (c =? d) eqn:F; cbn; [now rewrite !andb_false_r|]. replace (u_cid u =? d) with false by lia. reflexivity.
      - rewrite IH. unfold works at 1 3. destruct (u_cid u =? d) eqn:F; cbn; trivial.
        replace (c =? d) with false by lia. cbn. now rewrite !andb_true_r. }
    rewrite W. unfold to. cbn [filter fst]. destruct (c =? d) eqn:F; cbn [map snd follow].
    + rewrite andb_false_r. destruct (existsb (works d) (d_users s)); reflexivity.
    + rewrite andb_true_r. reflexivity.
Qed.

(** * days *)
Lemma stop_all_spec date us : forall us' o, stop_all date us = (us', o) ->
  us' = map (set_st SStop) us /\
  (Forall (fun u => u_st u <> SStop) us -> NoDup (map u_cid us) -> forall c, to c o = if existsb (is_user c) us then [HStop date] else []).
Proof.
  induction us as [|u us IH]; intros us' o E.
  - cbn in E. injection E as <- <-. split; trivial.
  - cbn [stop_all] in E. destruct (stop_all date us) as (r, o1). destruct (IH _ _ eq_refl) as (A & B). destruct (status_eqb (u_st u) SStop) eqn:S.
    + injection E as <- <-. split.
      * cbn. rewrite <- A. f_equal. apply seqb_iff in S. destruct u; cbn in *. now subst.
      * intros F. inversion F; subst. apply seqb_iff in S. contradiction.
    + injection E as <- <-. split; [cbn; now rewrite <- A|]. intros F ND c. inversion F; subst. inversion ND as [|? ? X Y]; subst.
      specialize (B H2 Y c). unfold to in *. cbn [filter fst existsb]. unfold is_user at 1. destruct (u_cid u =? c) eqn:E; cbn [map snd orb]; trivial.
      rewrite B. assert (existsb (is_user c) us = false) as ->; trivial. apply not_true_iff_false. intros Q. apply user_in in Q.
      destruct Q as (v & Q1 & Q2). apply X. replace (u_cid u) with (u_cid v) by lia. now apply in_map.
Qed.
Lemma set_st_cid x us : map u_cid (map (set_st x) us) = map u_cid us.
Proof. rewrite map_map. reflexivity. Qed.
Lemma set_st_user x c us : existsb (is_user c) (map (set_st x) us) = existsb (is_user c) us.
Proof. induction us as [|u us IH]; cbn; trivial. now rewrite IH. Qed.
Lemma set_st_works x c us : x <> SWork -> existsb (works c) (map (set_st x) us) = false.
Proof.
  intros N. induction us as [|u us IH]; cbn; trivial. rewrite IH. unfold works. cbn. destruct x; cbn; rewrite ?andb_false_r; trivial. contradiction.
Qed.
Lemma closed_phase h s o c : inv h s o -> open_st (d_st s) = false -> phase_of s c = PClosed.
Proof.
  intros I E. unfold phase_of. replace (existsb (works c) (d_users s)) with false; trivial. symmetry. apply not_true_iff_false. intros X.
  apply existsb_exists in X. destruct X as (u & J & W). unfold works in W. apply andb_true_iff in W. destruct W as (_ & W). apply seqb_iff in W.
  pose proof (i_stat _ _ _ I) as F. rewrite Forall_forall in F. specialize (F u J). rewrite W in F. destruct (d_st s); cbn in *; destruct F; discriminate.
Qed.
Lemma start_inv h s o d : inv h s o -> day_open h = false -> inv (h ++ [CStart d]) (do_start s d) o.
Proof.
  intros I E. pose proof I as I0. destruct I. rewrite i_open0 in E.
  constructor; cbn [do_start d_users d_st d_date d_readers d_keys d_subs]; unfold day_open, day_date, reader, first_pattern, last_keys in *;
    try (rewrite fold_snoc; trivial; fail).
  - now rewrite set_st_cid.
  - lia.
  - apply Forall_forall. intros u J. apply in_map_iff in J. destruct J as (v & <- & _). reflexivity.
  - rewrite in_force_snoc. cbn. trivial.
  - intros a J. rewrite in_force_snoc in J. cbn in J. rewrite set_st_user. auto.
  - intros c. rewrite fold_snoc, set_st_user. auto.
  - apply Forall_forall. intros u J. apply in_map_iff in J. destruct J as (v & <- & J). rewrite Forall_forall in i_pat0.
    destruct (i_pat0 v J) as (q & Q). exists q. rewrite fold_snoc. exact Q.
  - intros c C. rewrite set_st_user in C. rewrite fold_snoc. auto.
  - intros c. rewrite i_follow0, (closed_phase _ _ _ _ I0 E). unfold phase_of. cbn [do_start d_users]. now rewrite set_st_works.
Qed.
Lemma stop_inv h s o s' o' b : inv h s o -> do_stop s = (s', o', b) -> inv (h ++ [CStop]) s' (o ++ o').
Proof.
  intros I E. unfold do_stop in E. destruct (status_eqb (d_st s) SStop || status_eqb (d_st s) SNone) eqn:S.
  - injection E as <- <- <-. rewrite app_nil_r.
    assert (OP : open_st (d_st s) = false) by (destruct (d_st s); trivial; discriminate).
    destruct I. constructor; trivial; unfold day_open, day_date, reader, first_pattern, last_keys in *; try (rewrite fold_snoc; trivial; fail).
    + rewrite fold_snoc. now rewrite OP.
    + rewrite in_force_snoc. trivial.
    + intros a J. rewrite in_force_snoc in J. auto.
    + intros c. rewrite fold_snoc. auto.
    + eapply Forall_impl; [|exact i_pat0]. intros u P. cbn in P. rewrite fold_snoc. exact P.
    + intros c C. rewrite fold_snoc. auto.
  - destruct (stop_all (d_date s) (d_users s)) as (us, o1) eqn:SA. injection E as <- <- <-.
    assert (OP : d_st s = SInit \/ d_st s = SWork) by (destruct (d_st s); auto; discriminate).
    destruct (stop_all_spec _ _ _ _ SA) as (-> & B). pose proof (i_nodup _ _ _ I) as ND.
    assert (NS : Forall (fun u => u_st u <> SStop) (d_users s)).
    { eapply Forall_impl; [|exact (i_stat _ _ _ I)]. intros u K. cbn in K. destruct OP as [OP|OP]; rewrite OP in K; cbn in K; intuition congruence. }
    specialize (B NS ND). destruct I.
    constructor; cbn [d_users d_st d_date d_readers d_keys d_subs]; unfold day_open, day_date, reader, first_pattern, last_keys in *;
      try (rewrite fold_snoc; trivial; fail).
    + now rewrite set_st_cid.
    + lia.
    + apply Forall_forall. intros u J. apply in_map_iff in J. destruct J as (v & <- & _). cbn. auto.
    + rewrite in_force_snoc. cbn. trivial.
    + intros a J. rewrite in_force_snoc in J. cbn in J. rewrite set_st_user. auto.
    + intros c. rewrite fold_snoc, set_st_user. auto.
    + apply Forall_forall. intros u J. apply in_map_iff in J. destruct J as (v & <- & J). rewrite Forall_forall in i_pat0.
      destruct (i_pat0 v J) as (q & Q). exists q. rewrite fold_snoc. exact Q.
    + intros c C. rewrite set_st_user in C. rewrite fold_snoc. auto.
    + intros c. rewrite to_app, follow_app, i_follow0, B. unfold phase_of. cbn [d_users]. rewrite set_st_works by discriminate.
      destruct (existsb (is_user c) (d_users s)) eqn:U.
      * destruct (existsb (works c) (d_users s)); cbn; [now rewrite Z.eqb_refl|reflexivity].
      * rewrite no_works by trivial. reflexivity.
Qed.

(** * all commands *)
Lemma inv0 : inv [] sdb0 [].
Proof. constructor; try apply sinv0; cbn; trivial; try constructor; try contradiction; try lia. Qed.
Lemma cmd_inv h s o es c s' o' b : inv h s o -> usual c -> (forall d, c = CStart d -> day_open h = false) ->
  Permutation es (s_mul (d_subs s)) -> run_cmd s es c = Some (s', o', b) -> inv (h ++ [c]) s' (o ++ o').
Proof.
  intros I U D P E. destruct c as [i|i|d| |n|c n|c|c]; cbn [run_cmd] in E.
  - unfold set_keys in E. destruct i as [t|]; [|discriminate]. injection E as <- <- <-. rewrite app_nil_r.
    destruct I. constructor; cbn [d_users d_st d_date d_readers d_keys d_subs]; unfold day_open, day_date, reader, first_pattern, last_keys in *;
      try (rewrite fold_snoc; trivial; fail); trivial.
    + rewrite in_force_snoc. trivial.
    + intros a J. rewrite in_force_snoc in J. auto.
    + intros c. rewrite fold_snoc. auto.
    + eapply Forall_impl; [|exact i_pat0]. intros u Q. cbn in Q. rewrite fold_snoc. exact Q.
    + intros c C. rewrite fold_snoc. auto.
  - assert (Q : exists x, s' = mksdb (d_st s) (d_date s) (d_readers s) (d_keys s) x (d_users s) (d_subs s) /\ o' = []).
    { unfold set_tables in E. destruct (d_tabs s) as [|t0|], i as [t|]; try discriminate; destruct (load_text t) as [| | |m]; try discriminate;
        try (injection E as <- <- <-; eexists; split; reflexivity); destruct (to_sds m) as [x|]; try discriminate;
        injection E as <- <- <-; exists x; split; reflexivity. }
    destruct Q as (x & -> & ->). rewrite app_nil_r. apply (inv_after _ _ _ (CTables i)); [|exact Logic.I]. destruct I; constructor; trivial.
  - injection E as <- <- <-. rewrite app_nil_r. apply start_inv; trivial. now apply (D d).
  - destruct (do_stop s) as ((s1, o1), b1) eqn:S. injection E as <- <- <-. eapply stop_inv; eauto.
  - apply (inv_after _ _ _ (CPub n)); [|exact Logic.I]. eapply pub_inv; eauto.
  - destruct (do_sub s c n) as [s1|] eqn:S; [|discriminate]. injection E as <- <- <-. rewrite app_nil_r. now apply sub_inv with (s := s).
  - injection E as <- <- <-. now apply unsub_inv.
  - contradiction.
Qed.
Lemma history_inv h s o : history h s o -> orderly false h -> Forall usual h -> inv h s o.
Proof.
  induction 1 as [|h s o s1 es c s' o' b R IH M E]; intros O U; [exact inv0|]. apply orderly_snoc in O. destruct O as (O & D).
  apply Forall_app in U. destruct U as (U & UC). inversion UC; subst. destruct M as (us & P & -> & PE).
  eapply cmd_inv; [apply inv_perm; [exact (IH O U)|exact P]|trivial|exact D|exact PE|exact E].
Qed.
