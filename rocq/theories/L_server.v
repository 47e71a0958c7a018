(** Lemmas about request handling. *)
From Verif Require Import Base S_server M_server.
From Coq Require Import String ZifyBool.

Lemma casecmp_ci : forall a b, casecmp a b = true <-> ci_eq a b.
Proof.
  unfold ci_eq. induction a as [|x a IH]; destruct b as [|y b]; cbn [casecmp map]; split; intros H; try easy.
  - apply andb_true_iff in H. destruct H as [H1 H2]. apply Z.eqb_eq in H1. apply IH in H2. now rewrite H1, H2.
  - injection H as H1 H2. rewrite H1, Z.eqb_refl. now apply IH.
Qed.

Lemma ci_find_in : forall V (l : list (str * V)) key v,
  ci_find l key = Some v -> exists nm, In (nm, v) l /\ ci_eq nm key.
Proof.
  induction l as [|[k w] l IH]; cbn [ci_find]; intros key v H; [easy|].
  destruct (casecmp k key) eqn:E.
  - injection H as <-. exists k. split; [now left|now apply casecmp_ci].
  - destruct (IH _ _ H) as [nm [? ?]]. exists nm. split; [now right|easy].
Qed.

Lemma zfind_in : forall V (l : list (Z * V)) k v, zfind l k = Some v -> In (k, v) l.
Proof.
  induction l as [|[k' w] l IH]; cbn [zfind]; intros k v H; [easy|].
  destruct (Z.eqb_spec k' k).
  - injection H as <-. subst. now left.
  - right. now apply IH.
Qed.
Lemma zdel_in : forall V (l : list (Z * V)) k x, In x (zdel l k) -> In x l.
Proof.
  induction l as [|[k' w] l IH]; cbn [zdel]; intros k x H; [easy|].
  destruct (k' =? k); [right; eapply IH; eauto|]. destruct H as [<-|H]; [now left|right; eapply IH; eauto].
Qed.
Lemma zset_in : forall V (l : list (Z * V)) k v x, In x (zset l k v) -> x = (k, v) \/ In x l.
Proof. unfold zset. intros V l k v x [<-|H]; [now left|right; eapply zdel_in; eauto]. Qed.

(** users keep their password *)
Definition keeps (l l' : list (str * user)) : Prop :=
  forall nm u, In (nm, u) l -> exists u', In (nm, u') l' /\ u_pw u' = u_pw u.
Lemma keeps_refl : forall l, keeps l l.
Proof. intros l nm u H. now exists u. Qed.
Lemma keeps_relevel : forall l n lv, keeps l (relevel l n lv).
Proof.
  induction l as [|[k w] l IH]; intros n lv nm u H; [easy|]. cbn [relevel].
  destruct (casecmp k n).
  - destruct H as [H|H].
    + injection H as <- <-. eexists. split; [now left|easy].
    + exists u. split; [now right|easy].
  - destruct H as [H|H].
    + injection H as <- <-. exists w. split; [now left|easy].
    + destruct (IH n lv nm u H) as [u' [? ?]]. exists u'. split; [now right|easy].
Qed.
Lemma keeps_app : forall l x, keeps l (l ++ x).
Proof. intros l x nm u H. exists u. split; [apply in_or_app; now left|easy]. Qed.

Lemma setuser_frame : forall s i s', do_setuser s i = Some s' ->
  s_access s' = s_access s /\ s_conns s' = s_conns s /\ s_queue s' = s_queue s /\ s_next s' = s_next s /\
  s_auth s' = s_auth s /\ keeps (s_users s) (s_users s').
Proof.
  intros s i s' H. unfold do_setuser in H.
  destruct i as [| |n pw lv]; [easy|injection H as <-|].
  - repeat (split; [reflexivity|]). apply keeps_refl.
  - destruct (ci_find (s_users s) (oget n)) eqn:E; [destruct n|]; injection H as <-;
      repeat (split; [reflexivity|]); [apply keeps_relevel|apply keeps_refl|apply keeps_app].
Qed.

(** what a handled request leaves in the trace *)
Inductive shape (logs : bool) (s : srv) (k : nat) (cid : Z) (r : req) (s' : srv) : list tev -> Prop :=
| sh_refuse : s' = s -> shape logs s k cid r s' [TRefuse k cid r]
| sh_work : forall fl pre, s' = s -> access_method fl (get_access s cid) = true ->
    (get_access s cid < 0 -> is_auth r) -> r_service r <> None ->
    pre = (if negb (Z.land fl FL_WRITE =? 0) && (Z.land fl FL_NOLOG =? 0) && logs then [TLog k cid r] else []) ->
    shape logs s k cid r s' (pre ++ [TExec k cid fl r])
| sh_serv : forall fl, access_method fl (get_access s cid) = true ->
    (get_access s cid < 0 -> is_auth r) -> r_service r = None ->
    (s' = s \/ do_setuser s (r_info r) = Some s') -> shape logs s k cid r s' [TExec k cid fl r]
| sh_login : forall fl n p, access_method fl (get_access s cid) = true -> is_auth r -> r_service r = None ->
    s_auth s = true -> auth_check (s_users s) (r_info r) = Some (Some (n, p)) ->
    s' = set_access s (zset (s_access s) cid n) ->
    shape logs s k cid r s' [TExec k cid fl r; TLogin k cid n p].

Lemma casecmp_o_auth : forall c, casecmp_o c (Some (bs "auth")) = true -> exists x, c = Some x /\ ci_eq x (bs "auth").
Proof. intros [x|] H; [|easy]. exists x. split; [easy|]. now apply casecmp_ci. Qed.
Lemma casecmp_o_auth' : forall c, casecmp_o (Some (bs "auth")) c = true -> exists x, c = Some x /\ ci_eq x (bs "auth").
Proof.
  intros [x|] H; [|easy]. exists x. split; [easy|]. unfold ci_eq. symmetry. now apply casecmp_ci.
Qed.

Lemma process_shape : forall logs s k cid r s' t,
  process logs s k cid r = Some (s', t) -> shape logs s k cid r s' t.
Proof.
  intros logs s k cid r s' t H. unfold process in H.
  destruct ((get_access s cid <? 0) && negb (casecmp_o (Some (bs "auth")) (r_cmd r))) eqn:E0.
  { injection H as <- <-. now apply sh_refuse. }
  assert (Hau : get_access s cid < 0 -> is_auth r).
  { intros Hl. apply andb_false_iff in E0. destruct E0 as [E0|E0]; [lia|].
    apply negb_false_iff in E0. destruct (casecmp_o_auth' _ E0) as [x [? ?]]. now exists x. }
  destruct (r_service r) as [sv|] eqn:Es.
  - destruct (ci_find (s_works s) sv) as [ms|]; [|injection H as <- <-; now apply sh_refuse].
    destruct (ci_find_o ms (r_cmd r)) as [fl|]; [|injection H as <- <-; now apply sh_refuse].
    destruct (access_method fl (get_access s cid)) eqn:Ea; injection H as <- <-; [|now apply sh_refuse].
    eapply sh_work; eauto. congruence.
  - destruct (ci_find_o server_methods (r_cmd r)) as [fl|]; [|injection H as <- <-; now apply sh_refuse].
    destruct (access_method fl (get_access s cid)) eqn:Ea; [|injection H as <- <-; now apply sh_refuse].
    destruct (server_command s k cid r) as [[s1 t1]|] eqn:Ec; [|easy]. injection H as <- <-.
    unfold server_command in Ec.
    destruct (casecmp_o (r_cmd r) (Some (bs "auth"))) eqn:E1.
    + unfold do_auth in Ec. destruct (s_auth s) eqn:Eu; cbn [negb] in Ec.
      * destruct (auth_check (s_users s) (r_info r)) as [[[n p]|]|] eqn:Eau; [| |easy]; injection Ec as <- <-.
        -- eapply sh_login; eauto. destruct (casecmp_o_auth _ E1) as [x [? ?]]. now exists x.
        -- eapply sh_serv; eauto.
      * injection Ec as <- <-. eapply sh_serv; eauto.
    + destruct (casecmp_o (r_cmd r) (Some (bs "setuser"))).
      * destruct (do_setuser s (r_info r)) as [s2|] eqn:Eset; [|easy]. injection Ec as <- <-. eapply sh_serv; eauto.
      * injection Ec as <- <-. eapply sh_serv; eauto.
Qed.

Lemma auth_check_spec : forall users i n p, auth_check users i = Some (Some (n, p)) ->
  exists nm u lv, i = RJson (Some n) (Some p) lv /\ In (nm, u) users /\ ci_eq nm n /\ ci_eq (u_pw u) p.
Proof.
  intros users i n p H. unfold auth_check in H.
  destruct i as [| |[n0|] pw lv]; try easy.
  destruct (ci_find users n0) as [u|] eqn:E; [|easy]. destruct pw as [p0|]; [|easy].
  destruct (casecmp (u_pw u) p0) eqn:Ec; [|easy]. injection H as <- <-.
  destruct (ci_find_in _ _ _ _ E) as [nm [? ?]].
  exists nm, u, lv. repeat (split; [easy|]). now apply casecmp_ci.
Qed.

(** the invariant; [o] the connection numbers given so far, [T] the trace so far *)
Definition inv (o : list Z) (T : list tev) (s : srv) : Prop :=
  s_auth s = true /\ s_next s = List.length o /\
  (forall c k b, In (c, (k, b)) (s_conns s) -> nth_error o k = Some c) /\
  (forall k c r, In (k, c, r) (s_queue s) -> nth_error o k = Some c) /\
  (forall k c n p, In (TLogin k c n p) T -> nth_error o k = Some c /\
     exists nm u, In (nm, u) (s_users s) /\ ci_eq nm n /\ ci_eq (u_pw u) p) /\
  (forall c n, In (c, n) (s_access s) -> exists k p, In (TLogin k c n p) T).

(** every command run belongs to a connection number logged in before *)
Definition good (o : list Z) (T : list tev) : Prop :=
  forall t1 e t2 k c r, T = t1 ++ e :: t2 -> ran e k c r ->
    nth_error o k = Some c /\ (is_auth r \/ exists k' n p, In (TLogin k' c n p) t1).

Lemma nth_error_grow : forall (o x : list Z) k c, nth_error o k = Some c -> nth_error (o ++ x) k = Some c.
Proof. intros o x k c H. rewrite nth_error_app1; [easy|]. apply nth_error_Some. congruence. Qed.

Lemma opened_app : forall a b, opened (a ++ b) = opened a ++ opened b.
Proof. induction a as [|e a IH]; intros b; [easy|]. destruct e; cbn [opened app]; rewrite ?IH; easy. Qed.

Lemma good_grow : forall o x T, good o T -> good (o ++ x) T.
Proof.
  intros o x T H t1 e t2 k c r E R. destruct (H _ _ _ _ _ _ E R) as [H1 H2].
  split; [now apply nth_error_grow|easy].
Qed.

Lemma app_split : forall (T t t1 t2 : list tev) e, T ++ t = t1 ++ e :: t2 ->
  (exists y, T = t1 ++ e :: y) \/ (exists y, t1 = T ++ y /\ t = y ++ e :: t2).
Proof.
  induction T as [|a T IH]; intros t t1 t2 e H.
  - right. exists t1. split; [easy|easy].
  - destruct t1 as [|b t1]; cbn [app] in H; injection H as -> H.
    + left. now exists T.
    + destruct (IH _ _ _ _ H) as [[y ->]|[y [-> ->]]].
      * left. now exists y.
      * right. now exists y.
Qed.

Lemma good_app : forall o T t, good o T ->
  (forall e k c r, In e t -> ran e k c r ->
     nth_error o k = Some c /\ (is_auth r \/ exists k' n p, In (TLogin k' c n p) T)) ->
  good o (T ++ t).
Proof.
  intros o T t HT Ht t1 e t2 k c r E R.
  destruct (app_split _ _ _ _ _ E) as [[y ->]|[y [-> ->]]].
  - eapply HT; eauto.
  - destruct (Ht e k c r) as [H1 H2]; [apply in_or_app; right; now left|easy|].
    split; [easy|]. destruct H2 as [H2|[k' [n [p H2]]]]; [now left|right].
    exists k', n, p. apply in_or_app. now left.
Qed.

Lemma get_access_login : forall s cid o T, inv o T s -> get_access s cid < 0 \/ exists k n p, In (TLogin k cid n p) T.
Proof.
  intros s cid o T [Ha [_ [_ [_ [_ H]]]]]. unfold get_access. rewrite Ha.
  destruct (zfind (s_access s) cid) as [n|] eqn:E; [|left; lia].
  right. destruct (H cid n (zfind_in _ _ _ _ E)) as [k [p ?]]. now exists k, n, p.
Qed.

Lemma inv_extend : forall o T s t s',
  inv o T s -> s_auth s' = true -> s_next s' = s_next s -> s_conns s' = s_conns s -> s_queue s' = s_queue s ->
  keeps (s_users s) (s_users s') ->
  (forall k c n p, In (TLogin k c n p) t -> nth_error o k = Some c /\
     exists nm u, In (nm, u) (s_users s') /\ ci_eq nm n /\ ci_eq (u_pw u) p) ->
  (forall c n, In (c, n) (s_access s') -> In (c, n) (s_access s) \/ exists k p, In (TLogin k c n p) t) ->
  inv o (T ++ t) s'.
Proof.
  intros o T s t s' [I1 [I2 [I3 [I4 [I5 I6]]]]] Ha Hn Hc Hq Hk Ht Hac.
  split; [easy|]. split; [congruence|]. split; [rewrite Hc; exact I3|]. split; [rewrite Hq; exact I4|]. split.
  - intros k c n p Hin. apply in_app_or in Hin. destruct Hin as [Hin|Hin].
    + destruct (I5 _ _ _ _ Hin) as [H1 [nm [u [H2 [H3 H4]]]]]. split; [easy|].
      destruct (Hk nm u H2) as [u' [H5 H6]]. exists nm, u'. rewrite H6. easy.
    + now apply Ht.
  - intros c n Hin. destruct (Hac c n Hin) as [H|[k [p H]]].
    + destruct (I6 c n H) as [k [p ?]]. exists k, p. apply in_or_app. now left.
    + exists k, p. apply in_or_app. now right.
Qed.

Lemma step_inv : forall logs o T s e s' t,
  inv o T s -> good o T -> srv_step logs s e = Some (s', t) ->
  inv (o ++ opened [e]) (T ++ t) s' /\ good (o ++ opened [e]) (T ++ t).
Proof.
  intros logs o T s e s' t I G H. pose proof I as [I1 [I2 [I3 [I4 [I5 I6]]]]].
  destruct e as [cid|cid r| |cid|cid]; cbn [srv_step opened] in *.
  - injection H as <- <-. rewrite app_nil_r. split; [|now apply good_grow].
    split; [easy|]. split; [cbn [s_next]; rewrite app_length; cbn [List.length]; lia|].
    split; [|split; [|split]].
    + cbn [s_conns]. intros c k b Hin. apply zset_in in Hin. destruct Hin as [Hin|Hin].
      * injection Hin as -> -> ->. rewrite I2, nth_error_app2 by lia. now rewrite Nat.sub_diag.
      * apply nth_error_grow. eapply I3; eauto.
    + cbn [s_queue]. intros k c r Hin. apply nth_error_grow. eapply I4; eauto.
    + intros k c n p Hin. destruct (I5 _ _ _ _ Hin) as [H1 H2]. split; [now apply nth_error_grow|exact H2].
    + exact I6.
  - rewrite app_nil_r.
    destruct (zfind (s_conns s) cid) as [[k [|]]|] eqn:E; injection H as <- <-; rewrite app_nil_r; try (split; easy).
    split; [|easy]. split; [easy|]. split; [easy|]. split; [easy|]. split; [|split; easy].
    cbn [s_queue set_queue]. intros k' c' r' Hin. apply in_app_or in Hin. destruct Hin as [Hin|[Hin|[]]].
    + eapply I4; eauto.
    + injection Hin as <- <- <-. eapply I3. eapply zfind_in; eauto.
  - rewrite app_nil_r.
    destruct (s_queue s) as [|[[k cid] r] q] eqn:Eq.
    { injection H as <- <-. rewrite app_nil_r. split; easy. }
    assert (Hk : nth_error o k = Some cid) by (apply (I4 k cid r); now left).
    assert (I' : inv o T (set_queue s q)).
    { split; [easy|]. split; [easy|]. split; [easy|]. split; [|split; easy].
      cbn [s_queue set_queue]. intros k' c' r' Hin. apply (I4 k' c' r'). now right. }
    pose proof (get_access_login _ cid _ _ I') as Hacc.
    apply process_shape in H. revert H. generalize dependent (set_queue s q). intros s0 I' Hacc H.
    assert (Hrun : (get_access s0 cid < 0 -> is_auth r) ->
              is_auth r \/ exists k' n p, In (TLogin k' cid n p) T).
    { intros Hx. destruct Hacc as [Hacc|Hacc]; [left; auto|now right]. }
    pose proof I' as [J1 _].
    destruct H as [->|fl pre -> Ha Hau Hs Hpre|fl Ha Hau Hs Hs'|fl n p Ha Hau Hs Hen Hch ->].
    + split.
      * eapply inv_extend; eauto using keeps_refl. intros ? ? ? ? [?|[]]. easy.
      * apply good_app; [easy|]. intros e ? ? ? [<-|[]] [R|[? R]]; easy.
    + split.
      * eapply inv_extend; eauto using keeps_refl. intros k' c' n' p' Hin. exfalso. subst pre.
        apply in_app_or in Hin. destruct Hin as [Hin|[Hin|[]]]; [|easy].
        destruct (negb (Z.land fl FL_WRITE =? 0) && (Z.land fl FL_NOLOG =? 0) && logs); [|easy].
        destruct Hin as [Hin|[]]. easy.
      * apply good_app; [easy|]. intros e k' c' r' Hin R.
        assert (Heq : k' = k /\ c' = cid /\ r' = r).
        { subst pre. apply in_app_or in Hin. destruct Hin as [Hin|[Hin|[]]].
          - destruct (negb (Z.land fl FL_WRITE =? 0) && (Z.land fl FL_NOLOG =? 0) && logs); [|easy].
            destruct Hin as [<-|[]]. destruct R as [R|[? R]]; [|easy]. now injection R as -> -> ->.
          - subst e. destruct R as [R|[? R]]; [easy|]. now injection R as -> -> -> ->. }
        destruct Heq as [-> [-> ->]]. split; [easy|auto].
    + assert (Hf : s_auth s' = true /\ s_access s' = s_access s0 /\ s_next s' = s_next s0 /\ s_conns s' = s_conns s0 /\
                   s_queue s' = s_queue s0 /\ keeps (s_users s0) (s_users s')).
      { destruct Hs' as [->|Hs'].
        - repeat (split; [easy|]). apply keeps_refl.
        - destruct (setuser_frame _ _ _ Hs') as [A [B [C [D [E F]]]]]. repeat split; try congruence. exact F. }
      destruct Hf as [F1 [F2 [F3 [F4 [F5 F6]]]]].
      split.
      * eapply inv_extend; eauto.
        -- intros ? ? ? ? [?|[]]. easy.
        -- rewrite F2. intros c n Hin. now left.
      * apply good_app; [easy|]. intros e k' c' r' [<-|[]] [R|[? R]]; [easy|]. injection R as -> -> -> ->.
        split; [easy|auto].
    + destruct (auth_check_spec _ _ _ _ Hch) as [nm [u [lv [_ [A [B C]]]]]]. split.
      * eapply inv_extend; eauto using keeps_refl.
        -- intros k' c' n' p' [Hin|[Hin|[]]]; [easy|]. injection Hin as -> -> -> ->.
           split; [easy|]. exists nm, u. easy.
        -- cbn [s_access set_access]. intros c' n' Hin. apply zset_in in Hin. destruct Hin as [Hin|Hin]; [|now left].
           injection Hin as -> ->. right. exists k, p. right. now left.
      * apply good_app; [easy|]. intros e k' c' r' [<-|[<-|[]]] [R|[? R]]; try easy. injection R as -> -> -> ->.
        split; [easy|now left].
  - rewrite app_nil_r.
    destruct (zfind (s_conns s) cid) as [[k [|]]|] eqn:E; injection H as <- <-; rewrite app_nil_r; try (split; easy).
    split; [|easy]. split; [easy|]. split; [easy|]. split; [|split; [easy|split; easy]].
    cbn [s_conns set_conns]. intros c' k' b' Hin. apply zset_in in Hin. destruct Hin as [Hin|Hin].
    + injection Hin as -> -> ->. eapply I3. eapply zfind_in; eauto.
    + eapply I3; eauto.
  - rewrite app_nil_r.
    destruct (zfind (s_conns s) cid) as [[k [|]]|] eqn:E; [rewrite I1 in H| |]; injection H as <- <-; rewrite app_nil_r; try (split; easy).
    + split; [|easy]. split; [easy|]. split; [easy|]. split; [|split; [easy|split; [easy|]]].
      * cbn [s_conns set_conns set_access]. intros c' k' b' Hin. apply zdel_in in Hin. eapply I3; eauto.
      * cbn [s_access set_access set_conns]. intros c' n' Hin. apply zdel_in in Hin. eapply I6; eauto.
    + split; [|easy]. split; [easy|]. split; [easy|]. split; [|split; [easy|split; easy]].
      cbn [s_conns set_conns]. intros c' k' b' Hin. apply zdel_in in Hin. eapply I3; eauto.
Qed.

Lemma run_inv : forall logs es n o T s s' t,
  inv o T s -> good o T -> srv_run logs n s es = Some (s', t) ->
  inv (o ++ opened es) (T ++ t) s' /\ good (o ++ opened es) (T ++ t).
Proof.
  intros logs. induction es as [|e es IH]; intros n o T s s' t I G H.
  - cbn [srv_run] in H. injection H as <- <-. cbn [opened]. rewrite !app_nil_r. easy.
  - cbn [srv_run] in H. destruct (srv_step (logs n) s e) as [[s1 t1]|] eqn:E; [|easy].
    destruct (srv_run logs (S n) s1 es) as [[s2 t2]|] eqn:E2; [|easy]. injection H as <- <-.
    destruct (step_inv _ _ _ _ _ _ _ I G E) as [I1 G1].
    destruct (IH _ _ _ _ _ _ I1 G1 E2) as [I2 G2].
    change (e :: es) with ([e] ++ es). rewrite opened_app.
    rewrite !app_assoc. easy.
Qed.

Lemma start_inv : forall works users, users <> [] -> inv [] [] (srv_start works users) /\ good [] [].
Proof.
  intros works users H. split.
  - split; [destruct users; easy|]. split; [easy|]. repeat split; try easy.
  - intros t1 e t2 k c r E. destruct t1; easy.
Qed.

Lemma c29_main : forall logs works users es s t1 e t2 k cid r,
  users <> [] ->
  srv_run logs 0 (srv_start works users) es = Some (s, t1 ++ e :: t2) ->
  ran e k cid r -> ~ is_auth r ->
  nth_error (opened es) k = Some cid /\
  exists k' n p nm u, nth_error (opened es) k' = Some cid /\ In (TLogin k' cid n p) t1 /\ (NoDup (opened es) -> k' = k) /\
    In (nm, u) (s_users s) /\ ci_eq nm n /\ ci_eq (u_pw u) p.
Proof.
  intros logs works users es s t1 e t2 k cid r Hu H R Hna.
  destruct (start_inv works users Hu) as [I G].
  destruct (run_inv _ _ _ _ _ _ _ _ I G H) as [I' G']. cbn [app] in I', G'.
  destruct (G' t1 e t2 k cid r eq_refl R) as [Hk [Ha|[k' [n [p Hin]]]]]; [easy|].
  destruct I' as [_ [_ [_ [_ [I5 _]]]]].
  assert (Hin' : In (TLogin k' cid n p) (t1 ++ e :: t2)) by (apply in_or_app; now left).
  destruct (I5 _ _ _ _ Hin') as [Hk' [nm [u [A [B C]]]]].
  split; [easy|]. exists k', n, p, nm, u. split; [easy|]. split; [easy|]. split; [|easy].
  intros ND. rewrite NoDup_nth_error in ND. apply ND.
  - apply nth_error_Some. congruence.
  - congruence.
Qed.

(** access levels *)
Lemma access_ok : forall fl a, access_method fl a = true ->
  ~ has fl FL_NONET /\ (a = LV_READ -> ~ has fl FL_WRITE /\ ~ has fl FL_DEL).
Proof.
  intros fl a H. unfold access_method, has, LV_READ, FL_READ, SIS_METHOD_ACCESS_ADMIN in *.
  destruct (Z.eqb_spec fl 0) as [->|Hfl]; [cbn; easy|].
  destruct (Z.eqb_spec (Z.land fl FL_NONET) 0) as [E|E]; cbn [negb] in H; [|easy].
  split; [easy|]. intros ->. cbn [Z.eqb] in H. change (1 =? 7) with false in H. change (1 =? FL_WRITE) with false in H.
  change (1 =? 1) with true in H. cbn [andb] in H.
  destruct (Z.eqb_spec (Z.land fl FL_DEL) 0); destruct (Z.eqb_spec (Z.land fl FL_WRITE) 0); cbn in H; easy.
Qed.

Lemma process_access : forall logs s k cid r s' t fl r',
  process logs s k cid r = Some (s', t) -> In (TExec k cid fl r') t ->
  ~ has fl FL_NONET /\ (get_access s cid = LV_READ -> ~ has fl FL_WRITE /\ ~ has fl FL_DEL).
Proof.
  intros logs s k cid r s' t fl r' H Hin. apply process_shape in H.
  apply access_ok.
  destruct H as [->|f pre -> Ha Hau Hs Hpre|f Ha Hau Hs Hs'|f n p Ha Hau Hs Hen Hch ->].
  - destruct Hin as [Hin|[]]. easy.
  - subst pre. apply in_app_or in Hin. destruct Hin as [Hin|[Hin|[]]]; [|congruence].
    destruct (negb (Z.land f FL_WRITE =? 0) && (Z.land f FL_NOLOG =? 0) && logs); [|easy].
    destruct Hin as [Hin|[]]. easy.
  - destruct Hin as [Hin|[]]. congruence.
  - destruct Hin as [Hin|[Hin|[]]]; [congruence|easy].
Qed.

(** log before execution *)
Lemma logged_app : forall a b, logged (a ++ b) = logged a ++ logged b.
Proof. induction a as [|e a IH]; intros b; [easy|]. destruct e; cbn [logged app]; rewrite ?IH; easy. Qed.
Lemma written_app : forall a b, written (a ++ b) = written a ++ written b.
Proof.
  induction a as [|e a IH]; intros b; [easy|]. destruct e; cbn [written app]; rewrite ?IH; try easy.
  match goal with |- context[if ?x then _ else _] => destruct x end; easy.
Qed.

Definition paired (t : list tev) : Prop :=
  forall t1 k c r t2, t = t1 ++ TLog k c r :: t2 -> exists fl t2', t2 = TExec k c fl r :: t2'.

Lemma step_logs : forall logs s e s' t, srv_step logs s e = Some (s', t) ->
  (logs = true -> logged t = written t) /\ paired t.
Proof.
  intros logs s e s' t H.
  assert (N : (logs = true -> logged [] = written []) /\ paired []).
  { split; [easy|]. intros t1 k c r t2 E. destruct t1; easy. }
  destruct e as [cid|cid r| |cid|cid]; cbn [srv_step] in H.
  - injection H as <- <-. exact N.
  - destruct (zfind (s_conns s) cid) as [[k [|]]|]; injection H as <- <-; exact N.
  - destruct (s_queue s) as [|[[k cid] r] q]; [injection H as <- <-; exact N|].
    apply process_shape in H.
    destruct H as [->|f pre -> Ha Hau Hs Hpre|f Ha Hau Hs Hs'|f n p Ha Hau Hs Hen Hch ->].
    + split; [easy|]. intros [|a t1] k' c' r' t2 E; [easy|]. destruct t1; easy.
    + subst pre. destruct (r_service r) as [sv|] eqn:Es; [|easy]. split.
      * intros ->. rewrite logged_app, written_app. cbn [logged written]. rewrite Es.
        rewrite !andb_true_r. destruct (negb (Z.land f FL_WRITE =? 0) && (Z.land f FL_NOLOG =? 0)); easy.
      * intros t1 k' c' r' t2 E.
        destruct (negb (Z.land f FL_WRITE =? 0) && (Z.land f FL_NOLOG =? 0) && logs); cbn [app] in E.
        -- destruct t1 as [|a t1]; injection E as E1 E2.
           ++ subst. now exists f, [].
           ++ destruct t1 as [|b t1]; [easy|]. injection E2 as _ E2. destruct t1; easy.
        -- destruct t1 as [|a t1]; [easy|]. injection E as _ E2. destruct t1; easy.
    + split.
      * intros _. cbn [logged written]. rewrite Hs, andb_false_r. easy.
      * intros [|a t1] k' c' r' t2 E; [easy|]. injection E as _ E. destruct t1; easy.
    + split.
      * intros _. cbn [logged written]. rewrite Hs, andb_false_r. easy.
      * intros [|a t1] k' c' r' t2 E; [easy|]. injection E as _ E. destruct t1 as [|b t1]; [easy|].
        injection E as _ E. destruct t1; easy.
  - destruct (zfind (s_conns s) cid) as [[k [|]]|]; injection H as <- <-; exact N.
  - destruct (zfind (s_conns s) cid) as [[k [|]]|]; injection H as <- <-; exact N.
Qed.

Lemma run_logs : forall logs es n s s' t, srv_run logs n s es = Some (s', t) ->
  ((forall i, logs i = true) -> logged t = written t) /\ paired t.
Proof.
  intros logs. induction es as [|e es IH]; intros n s s' t H; cbn [srv_run] in H.
  - injection H as <- <-. split; [easy|]. intros t1 k c r t2 E. destruct t1; easy.
  - destruct (srv_step (logs n) s e) as [[s1 t1]|] eqn:E; [|easy].
    destruct (srv_run logs (S n) s1 es) as [[s2 t2]|] eqn:E2; [|easy]. injection H as <- <-.
    destruct (step_logs _ _ _ _ _ E) as [A B]. destruct (IH _ _ _ _ E2) as [C D]. split.
    + intros HL. rewrite logged_app, written_app, A, C; auto.
    + intros x k c r y Heq. destruct (app_split _ _ _ _ _ Heq) as [[z ->]|[z [-> ->]]].
      * rewrite <- app_assoc in Heq. cbn [app] in Heq. apply app_inv_head in Heq. injection Heq as <-.
        destruct (B _ _ _ _ _ eq_refl) as [fl [z' ->]]. exists fl. eexists. reflexivity.
      * eapply D. reflexivity.
Qed.

(** a right password logs in *)
Lemma ci_find_first : forall (l : list (str * user)) nm u n,
  (forall a x b y, In (a, x) l -> In (b, y) l -> ci_eq a b -> x = y) ->
  In (nm, u) l -> ci_eq nm n -> ci_find l n = Some u.
Proof.
  induction l as [|[k w] l IH]; intros nm u n HU Hin Hci; [easy|]. cbn [ci_find].
  destruct (casecmp k n) eqn:E.
  - apply casecmp_ci in E. f_equal. eapply (HU k w nm u); [now left|exact Hin|]. unfold ci_eq in *. congruence.
  - destruct Hin as [Hin|Hin].
    + injection Hin as -> ->. apply casecmp_ci in Hci. congruence.
    + eapply IH; eauto. intros a x b y Ha Hb. apply HU; now right.
Qed.

Lemma login_complete : forall logs s k cid nm u n p lv,
  s_auth s = true ->
  (forall a x b y, In (a, x) (s_users s) -> In (b, y) (s_users s) -> ci_eq a b -> x = y) ->
  In (nm, u) (s_users s) -> ci_eq nm n -> ci_eq (u_pw u) p ->
  exists s' fl, process logs s k cid (mkreq None (Some (bs "auth")) (RJson (Some n) (Some p) lv))
    = Some (s', [TExec k cid fl (mkreq None (Some (bs "auth")) (RJson (Some n) (Some p) lv)); TLogin k cid n p]) /\
    In (cid, n) (s_access s').
Proof.
  intros logs s k cid nm u n p lv Ha HU Hin Hn Hp.
  pose proof (ci_find_first _ _ _ _ HU Hin Hn) as E. apply casecmp_ci in Hp.
  exists (set_access s (zset (s_access s) cid n)), 1. split; [|now left].
  unfold process. cbn [r_cmd r_service r_info].
  replace (casecmp_o (Some (bs "auth")) (Some (bs "auth"))) with true by (vm_compute; reflexivity).
  rewrite andb_false_r.
  replace (ci_find_o server_methods (Some (bs "auth"))) with (Some 1) by (vm_compute; reflexivity).
  assert (Hm : access_method 1 (get_access s cid) = true).
  { unfold access_method. change (1 =? 0) with false. change (Z.land 1 FL_NONET =? 0) with true.
    change (Z.land 1 FL_DEL =? 0) with true. change (Z.land 1 FL_WRITE =? 0) with true. cbn [negb orb].
    rewrite !andb_false_r. destruct (get_access s cid =? SIS_METHOD_ACCESS_ADMIN); reflexivity. }
  rewrite Hm. unfold server_command. cbn [r_cmd r_info].
  replace (casecmp_o (Some (bs "auth")) (Some (bs "auth"))) with true by (vm_compute; reflexivity).
  unfold do_auth, auth_check. rewrite Ha, E, Hp. reflexivity.
Qed.

Lemma auth_crash : forall logs s k cid i,
  s_auth s = true -> auth_check (s_users s) i = None ->
  process logs s k cid (mkreq None (Some (bs "auth")) i) = None.
Proof.
  intros logs s k cid i Ha E.
  unfold process. cbn [r_cmd r_service r_info].
  replace (casecmp_o (Some (bs "auth")) (Some (bs "auth"))) with true by (vm_compute; reflexivity).
  rewrite andb_false_r.
  replace (ci_find_o server_methods (Some (bs "auth"))) with (Some 1) by (vm_compute; reflexivity).
  assert (Hm : access_method 1 (get_access s cid) = true).
  { unfold access_method. change (1 =? 0) with false. change (Z.land 1 FL_NONET =? 0) with true.
    change (Z.land 1 FL_DEL =? 0) with true. change (Z.land 1 FL_WRITE =? 0) with true. cbn [negb orb].
    rewrite !andb_false_r. destruct (get_access s cid =? SIS_METHOD_ACCESS_ADMIN); reflexivity. }
  rewrite Hm. unfold server_command. cbn [r_cmd r_info].
  replace (casecmp_o (Some (bs "auth")) (Some (bs "auth"))) with true by (vm_compute; reflexivity).
  unfold do_auth. rewrite Ha, E. reflexivity.
Qed.

Lemma unknown_crash : forall users n p lv, (forall nm u, In (nm, u) users -> ~ ci_eq nm n) ->
  auth_check users (RJson (Some n) p lv) = None.
Proof.
  intros users n p lv Hn. cbn [auth_check]. destruct (ci_find users n) as [u|] eqn:E; [|reflexivity].
  destruct (ci_find_in _ _ _ _ E) as [nm [A B]]. exfalso. exact (Hn _ _ A B).
Qed.
