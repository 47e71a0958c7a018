(** Proofs about the chunked queue. *)
From Verif Require Import Base S_list S_lists M_list M_lists L_list.
From Coq Require Import ZifyBool ZifyNat.

Section L.
Context {A : Type}.
Variable junk : nat -> nat -> A.
Variable nc : nat.
Hypothesis nc_pos : (0 < nc)%nat.

(** chunk [c] has capacity [nc], starts at [st] and holds [x] *)
Definition chunk (c : slist A) (st : nat) (x : list A) : Prop :=
  holds_seq c x /\ lstart c = st /\ length (lbuf c) = nc.

Lemma chunk_len c st x : chunk c st x -> lcount c = length x /\ (st + length x <= nc)%nat.
Proof.
  intros ((p & q & B & Lp & Ll) & S & L). rewrite B, !app_length in L. lia.
Qed.

Fixpoint chain (st : nat) (cs : list (slist A)) (q : list A) : Prop :=
  match cs with
  | [] => False
  | c :: cs' =>
    match cs' with
    | [] => chunk c st q
    | _ => exists x q', q = x ++ q' /\ chunk c st x /\ (st + length x = nc)%nat /\ q' <> [] /\ chain 0 cs' q'
    end
  end.

Lemma push_fits c st x v : chunk c st x -> (st + length x < nc)%nat ->
  exists c' z, sl_pushs junk c [v] = Some (c', z) /\ chunk c' st (x ++ [v]).
Proof.
  intros ((p & q & B & Lp & Ll) & S & L) H. unfold sl_pushs, sl_grow. cbn [length].
  replace (Nat.ltb (length (lbuf c)) (lstart c + lcount c + 1)) with false by lia. cbn [andb].
  replace (Nat.leb (lstart c + lcount c + 1) (length (lbuf c))) with true by lia.
  destruct q as [|y q]; [rewrite app_nil_r in B; rewrite B, app_length in L; lia|].
  rewrite (aput_at _ (p ++ x) [y] q [v]) by (rewrite ?B, ?app_length, <- ?app_assoc; cbn; auto; lia).
  eexists _, _. split; [reflexivity|]. split; [|split]; cbn [lbuf lstart lcount]; auto.
  - exists p, q. cbn [lbuf lstart lcount]. rewrite <- !app_assoc, app_length. cbn. repeat split; auto; lia.
  - rewrite B, !app_length in L. rewrite !app_length. cbn [length] in *. lia.
Qed.

Lemma new_chunk : chunk (nl_chunk junk nc) 0 [].
Proof.
  unfold nl_chunk, sl_set_size. split; [|split]; cbn [lbuf lstart lcount]; auto.
  - exists [], (fresh junk 0 nc). auto.
  - apply fresh_length.
Qed.

Lemma chain_last before c : forall st q, chain st (before ++ [c]) q ->
  exists st' q1 x, q = q1 ++ x /\ chunk c st' x
    /\ (forall c' x', chunk c' st' x' -> x' <> [] -> chain st (before ++ [c']) (q1 ++ x'))
    /\ ((st' + length x = nc)%nat -> forall c' x', chunk c' 0 x' -> x' <> [] -> chain st (before ++ [c] ++ [c']) (q ++ x')).
Proof.
  induction before as [|b before IH]; intros st q H.
  - cbn [app chain] in H. exists st, [], q. cbn [app]. split; [reflexivity|]. split; [assumption|].
    split; [intros; cbn [chain]; assumption|].
    intros Hf c' x' Hc' Hx. cbn [chain]. exists q, x'. auto.
  - assert (H' : exists x q', q = x ++ q' /\ chunk b st x /\ (st + length x = nc)%nat /\ q' <> [] /\ chain 0 (before ++ [c]) q').
    { cbn [app chain] in H. destruct (before ++ [c]) eqn:E; [destruct before; discriminate|]. exact H. }
    destruct H' as (x & q' & -> & Hb & Hf & Hq & H'). destruct (IH 0%nat q' H') as (st' & q1 & y & -> & Hc & K1 & K2).
    exists st', (x ++ q1), y. split; [rewrite app_assoc; reflexivity|]. split; [assumption|]. split.
    + intros c' x' Hc' Hx. specialize (K1 c' x' Hc' Hx). cbn [app chain].
      destruct (before ++ [c']) eqn:E; [destruct before; discriminate|].
      exists x, (q1 ++ x'). rewrite <- app_assoc. split; [reflexivity|]. split; [assumption|]. split; [assumption|].
      split; [|assumption]. destruct q1, x'; auto; discriminate.
    + intros He c' x' Hc' Hx. specialize (K2 He c' x' Hc' Hx). cbn [app chain].
      destruct (before ++ c :: [c']) eqn:E; [destruct before; discriminate|].
      cbn [app] in K2. rewrite E in K2.
      exists x, ((q1 ++ y) ++ x'). rewrite <- (app_assoc x). split; [reflexivity|]. split; [assumption|]. split; [assumption|].
      split; [|exact K2]. destruct (q1 ++ y), x'; auto; discriminate.
Qed.

Definition inv (l : nlist A) (q : list A) (d : Z) : Prop :=
  exists st, chain st (nnodes l) q /\ ncount l = length q /\ nnouse l = Z.of_nat st
    /\ d mod Z.of_nat nc = Z.of_nat st mod Z.of_nat nc.

Lemma chain_st st cs q : chain st cs q -> (st <= nc)%nat.
Proof.
  destruct cs as [|c [|c' cs]]; cbn [chain]; [tauto| |].
  - intros H. apply chunk_len in H. lia.
  - intros (x & q' & _ & H & _). apply chunk_len in H. lia.
Qed.

Lemma node_push_ok l q d v : inv l q d -> exists l', nl_push junk nc l v = Some l' /\ inv l' (q ++ [v]) d.
Proof.
  intros (st & Hch & Hcnt & Hno & Hd). unfold nl_push.
  destruct (exists_last (l := nnodes l)) as (before & c & E); [intros C; rewrite C in Hch; exact Hch|].
  rewrite E, rev_app_distr. cbn [rev app]. rewrite rev_involutive.
  rewrite E in Hch. destruct (chain_last _ _ _ _ Hch) as (st' & q1 & x & Eq & Hc & K1 & K2).
  destruct (chunk_len _ _ _ Hc) as (Hcc & Hle). assert (Hs : lstart c = st') by apply Hc. rewrite Hs, Hcc.
  destruct (Nat.leb_spec nc (st' + length x)).
  - destruct (push_fits _ 0 [] v new_chunk) as (c' & z & E1 & H1); [cbn; lia|]. rewrite E1.
    eexists. split; [reflexivity|]. exists st. cbn [nnodes ncount nnouse]. rewrite <- app_assoc.
    split; [apply K2; auto; [lia|discriminate]|]. rewrite app_length. cbn [length]. repeat split; auto; lia.
  - destruct (push_fits _ _ _ v Hc) as (c' & z & E1 & H1); [lia|]. rewrite E1.
    eexists. split; [reflexivity|]. exists st. cbn [nnodes ncount nnouse].
    split; [rewrite Eq, <- app_assoc; apply K1; [assumption|destruct x; discriminate]|].
    rewrite app_length. cbn [length]. repeat split; auto; lia.
Qed.

Lemma pop_chunk c st x y : chunk c st (x :: y) -> exists c', sl_pop c = Some (c', Some x) /\ chunk c' (S st) y.
Proof.
  intros (H & S & L). destruct (pop_ok c (x :: y) H) as (c' & E & H'). cbn [hd_error tl] in *.
  exists c'. split; [assumption|]. split; [assumption|].
  unfold sl_pop in E. destruct (Nat.ltb 0 (lcount c)); [|discriminate].
  destruct (sl_at c (lstart c)); [|discriminate]. injection E as <- _. cbn. auto.
Qed.

(** popping when the first chunk has elements *)
Lemma pop_front st cs x q : chain st cs (x :: q) -> (st < nc)%nat ->
  exists c cs' c', cs = c :: cs' /\ lcount c <> 0%nat /\ sl_pop c = Some (c', Some x) /\ chain (S st) (c' :: cs') q.
Proof.
  intros H Hs. destruct cs as [|c [|c1 cs]]; cbn [chain] in H; [tauto| |].
  - destruct (chunk_len _ _ _ H) as (Hc & _). destruct (pop_chunk _ _ _ _ H) as (c' & E & H').
    exists c, [], c'. cbn [length] in Hc. split; [reflexivity|]. split; [lia|]. split; [assumption|]. exact H'.
  - destruct H as (y & q' & Eq & H & Hf & Hq & Hch). destruct y as [|x' y]; [cbn in Hf; lia|].
    injection Eq as <- ->. destruct (chunk_len _ _ _ H) as (Hc & _). destruct (pop_chunk _ _ _ _ H) as (c' & E & H').
    exists c, (c1 :: cs), c'. cbn [length] in *. split; [reflexivity|]. split; [lia|]. split; [assumption|].
    exists y, q'. repeat split; auto; try apply H'. lia.
Qed.

Lemma node_pop_ok l x q d : inv l (x :: q) d -> exists l', nl_pop nc l = Some (l', Some x) /\ inv l' q (d + 1).
Proof.
  intros (st & Hch & Hcnt & Hno & Hd).
  (* the chain once empty chunks are dropped *)
  assert (Hdrop : exists st' cs, nl_drop nc (nnodes l) (nnouse l) = (cs, Z.of_nat st') /\ chain st' cs (x :: q)
     /\ (st' < nc)%nat /\ (st = st' \/ st' = 0 /\ st = nc)%nat).
  { destruct (Nat.eq_dec st nc) as [->|Hst].
    - destruct (nnodes l) as [|c [|c1 cs]] eqn:E; cbn [chain] in Hch; [tauto| |].
      + apply chunk_len in Hch. cbn in Hch. lia.
      + destruct Hch as (y & q' & Eq & H & Hf & Hq & Hch). destruct y; [|cbn in Hf; lia]. cbn [app] in Eq. subst q'.
        change (chain 0 (c1 :: cs) (x :: q)) in Hch.
        exists 0%nat, (c1 :: cs). split; [|split; [exact Hch|lia]].
        destruct (chunk_len _ _ _ H) as (Hc & _). destruct (pop_front _ _ _ _ Hch) as (c2 & cs' & c' & Ec & Hcc & _); [lia|].
        injection Ec as <- <-. cbn [nl_drop]. rewrite Hc. cbn [length Nat.eqb].
        destruct (Nat.eqb_spec (lcount c1) 0); [lia|]. f_equal. lia.
    - exists st, (nnodes l). assert (Hle := chain_st _ _ _ Hch). split; [|split; [exact Hch|lia]].
      destruct (pop_front _ _ _ _ Hch) as (c2 & cs' & c' & Ec & Hcc & _); [lia|]. rewrite Ec. cbn [nl_drop].
      destruct (Nat.eqb_spec (lcount c2) 0); [lia|]. rewrite Hno. reflexivity. }
  destruct Hdrop as (st' & cs & E & Hch' & Hlt & Hst). unfold nl_pop.
  destruct (nnodes l) as [|c0 cs0] eqn:El; [cbn in Hch; tauto|]. rewrite E.
  destruct (pop_front _ _ _ _ Hch' Hlt) as (c2 & cs' & c' & -> & Hcc & E2 & Hch2). rewrite E2.
  eexists. split; [reflexivity|]. exists (S st'). cbn [nnodes ncount nnouse]. split; [assumption|].
  cbn [length] in Hcnt. split; [lia|]. split; [lia|].
  rewrite <- (Z.add_mod_idemp_l d) by lia. rewrite Hd.
  destruct Hst as [->|[-> ->]].
  - rewrite Z.add_mod_idemp_l by lia. f_equal. lia.
  - rewrite Z_mod_same_full. f_equal.
Qed.

Lemma chain_get cs : forall st q i, chain st cs q -> (i < length q)%nat ->
  exists c x j, nth_error cs ((i + st) / nc) = Some c /\ holds_seq c x /\ nth_error x j = nth_error q i
    /\ (j + (if ((i + st) / nc =? 0)%nat then st else 0) = (i + st) mod nc)%nat.
Proof.
  induction cs as [|c cs IH]; intros st q i H Hi; [cbn in H; tauto|].
  destruct cs as [|c1 cs].
  - cbn [chain] in H. destruct (chunk_len _ _ _ H) as (_ & Hle). exists c, q, i.
    rewrite Nat.div_small, Nat.mod_small by lia. cbn. repeat split; auto; apply H.
  - destruct H as (x & q' & -> & H & Hf & Hq & Hch).
    destruct (Nat.lt_ge_cases i (length x)).
    + exists c, x, i. rewrite Nat.div_small, Nat.mod_small by lia. cbn [nth_error Nat.eqb].
      rewrite nth_error_app1 by lia. repeat split; auto; apply H.
    + rewrite app_length in Hi. destruct (IH 0%nat q' (i - length x)%nat Hch) as (c' & x' & j & E & Hh & Hn & Hj); [lia|].
      exists c', x', j.
      assert (Hd : (i + st = (i - length x + 0) + 1 * nc)%nat) by lia.
      rewrite Hd, Nat.div_add, Nat.mod_add by lia.
      replace ((i - length x + 0) / nc + 1)%nat with (S ((i - length x + 0) / nc)) by lia.
      cbn [nth_error Nat.eqb]. split; [exact E|]. split; [assumption|]. split.
      * rewrite nth_error_app2 by lia. assumption.
      * destruct (_ =? 0)%nat in Hj; lia.
Qed.

Lemma node_get_ok l q d i : inv l q d ->
  d mod Z.of_nat nc = 0 \/ i < 2 * (Z.of_nat nc - d mod Z.of_nat nc) -> nl_get nc l i = Some (seq_get q i).
Proof.
  intros (st & Hch & Hcnt & Hno & Hd) Hi. unfold nl_get, seq_get. rewrite Hcnt.
  destruct (Z.ltb_spec i 0); [reflexivity|]. cbn [orb].
  destruct (i >? Z.of_nat (length q) - 1) eqn:E.
  { rewrite (proj2 (nth_error_None q _)) by lia. reflexivity. }
  assert (Hle := chain_st _ _ _ Hch).
  set (n := Z.to_nat i). assert (En : i = Z.of_nat n) by lia.
  destruct (chain_get _ _ _ n Hch) as (c & x & j & Ec & Hh & Hn & Hj); [lia|].
  rewrite Hno, Z.quot_div_nonneg by lia.
  replace (i + Z.of_nat st) with (Z.of_nat (n + st)) by lia. rewrite <- Nat2Z.inj_div, Nat2Z.id, Ec.
  rewrite (get_ok c x _ Hh). f_equal. unfold seq_get.
  assert (Hr := Z.mod_pos_bound (Z.of_nat st) (Z.of_nat nc) ltac:(lia)).
  rewrite (Z.rem_mod_nonneg (Z.of_nat st)) by lia. rewrite Z.rem_mod_nonneg by lia.
  set (r := Z.of_nat st mod Z.of_nat nc) in *.
  assert (Hm := Z.mod_pos_bound i (Z.of_nat nc - r) ltac:(lia)).
  destruct (Z.ltb_spec (i mod (Z.of_nat nc - r)) 0); [lia|]. rewrite <- Hn. f_equal.
  (* the code's local index is j *)
  assert (Hdm := Nat.div_mod (n + st) nc ltac:(lia)). assert (Hmb := Nat.mod_upper_bound (n + st) nc ltac:(lia)).
  destruct (Nat.eq_dec st nc) as [->|Hne].
  - assert (r = 0) by (subst r; apply Z_mod_same_full).
    replace (n + nc)%nat with (n + 1 * nc)%nat in * by lia. rewrite Nat.div_add, Nat.mod_add in * by lia.
    destruct (Nat.eqb_spec (n / nc + 1) 0); [lia|].
    rewrite H1, Z.sub_0_r, En, <- Nat2Z.inj_mod, Nat2Z.id. lia.
  - assert (r = Z.of_nat st) by (subst r; apply Z.mod_small; lia).
    destruct (Nat.eqb_spec ((n + st) / nc) 0) as [E0|E0].
    + rewrite E0 in Hdm. rewrite Z.mod_small by lia. lia.
    + destruct Hi as [Hi|Hi].
      * assert (st = 0%nat) by lia. subst st. rewrite H1. cbn [Z.of_nat]. rewrite Z.sub_0_r.
        rewrite En, <- Nat2Z.inj_mod, Nat2Z.id. rewrite !Nat.add_0_r in Hj. lia.
      * assert (Hge : (nc <= n + st)%nat) by (destruct (Nat.lt_ge_cases (n + st) nc); [rewrite Nat.div_small in E0; lia|lia]).
        assert (Hi' : i < 2 * (Z.of_nat nc - Z.of_nat st)) by lia.
        replace (i mod (Z.of_nat nc - r)) with (i - (Z.of_nat nc - r)).
        2:{ apply (Z.mod_unique_pos _ _ 1); lia. }
        replace (n + st)%nat with (n + st - nc + 1 * nc)%nat in Hj by lia.
        rewrite Nat.mod_add, Nat.mod_small in Hj by lia. lia.
Qed.

Lemma node_run_ok ops : forall l q d, inv l q d -> q_tame nc q d ops ->
  exists l', nl_run junk nc l ops = Some (l', snd (q_run q ops)) /\ ncount l' = length (fst (q_run q ops)).
Proof.
  induction ops as [|op ops IH]; intros l q d H T; cbn [nl_run q_run].
  - exists l. split; [reflexivity|]. destruct H as (st & _ & Hc & _). exact Hc.
  - cbn [q_tame] in T. destruct T as [T1 T2].
    assert (Hs : exists l1, nl_step junk nc l op = Some (l1, snd (q_step q op)) /\
       inv l1 (fst (q_step q op)) (match op with QPop => d + 1 | _ => d end)).
    { destruct op; cbn [nl_step q_step fst snd].
      - destruct (node_push_ok l q d x H) as (l1 & E & H1). rewrite E. eauto.
      - destruct q as [|y q]; [congruence|]. apply node_pop_ok. assumption.
      - rewrite (node_get_ok l q d i H T1). eauto. }
    destruct Hs as (l1 & E1 & H1). rewrite E1.
    destruct (q_step q op) as [q1 r]. cbn [fst snd] in *.
    destruct (IH _ _ _ H1 T2) as (l2 & E2 & H2). rewrite E2.
    destruct (q_run q1 ops) as [q2 rs]. cbn [fst snd] in *. eauto.
Qed.

Lemma node_list_lemma ops : q_tame nc [] 0 ops ->
  exists l, nl_run junk nc (nl_create junk nc) ops = Some (l, snd (q_run [] ops))
    /\ ncount l = length (fst (q_run [] ops)).
Proof.
  intros T. apply (node_run_ok ops _ _ 0); [|exact T]. exists 0%nat. cbn [nl_create nnodes ncount nnouse chain].
  split; [apply new_chunk|]. auto.
Qed.
End L.
