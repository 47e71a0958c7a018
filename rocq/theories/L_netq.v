(** Lemmas about the connection queues and slots. *)
From Verif Require Import Base S_netq M_netq.
From Coq Require Import ZifyBool ZifyNat.

(** ** node queue *)
Lemma nodes_take_spec : forall w r c n w' r' c', nodes_take w r c n = (w', r', c') ->
  r ++ w = r' ++ w' /\ c' - c = Z.of_nat (length r') - Z.of_nat (length r).
Proof.
  induction w as [|o w IH]; intros r c n w' r' c' H; cbn [nodes_take] in H.
  - injection H as <- <- <-. rewrite !app_nil_r. split; [easy|lia].
  - destruct (n <=? c + 1).
    + injection H as <- <- <-. rewrite <- app_assoc. split; [easy|]. rewrite app_length. cbn [length]. lia.
    + destruct (IH _ _ _ _ _ _ H) as [A B]. rewrite <- app_assoc in A. split; [easy|].
      rewrite app_length in B. cbn [length] in B. lia.
Qed.

Definition ninv (q : nodes) : Prop :=
  n_rnums q = Z.of_nat (length (n_r q)) /\ n_size q = total (n_r q ++ n_w q).
Lemma total_app : forall a b, total (a ++ b) = total a + total b.
Proof. unfold total. induction a as [|x a IH]; intros b; cbn [app fold_right]; [easy|]. rewrite IH. apply Z.add_assoc. Qed.

Lemma nodes_read_inv : forall q n, ninv q ->
  ninv (fst (nodes_read q n)) /\ n_r (fst (nodes_read q n)) ++ n_w (fst (nodes_read q n)) = n_r q ++ n_w q /\
  snd (nodes_read q n) = Z.of_nat (length (n_r (fst (nodes_read q n)))) /\
  (n_r q <> [] -> fst (nodes_read q n) = q) /\
  (n_r q = [] -> n = 0 -> n_w (fst (nodes_read q n)) = []) /\
  (n_r q = [] -> n <> 0 -> n_w q <> [] -> n_r (fst (nodes_read q n)) <> []).
Proof.
  intros q n [H1 H2]. unfold nodes_read.
  destruct (0 <? n_rnums q) eqn:E.
  - cbn [fst snd]. split; [easy|]. split; [easy|]. split; [easy|]. split; [easy|].
    split; intros Hr; rewrite Hr in H1; cbn in H1; lia.
  - assert (Hr : n_r q = []) by (destruct (n_r q); [easy|cbn [length] in H1; lia]).
    rewrite Hr in *. cbn [length app] in *. destruct (Z.eqb_spec n 0).
    + cbn [fst snd n_r n_w n_rnums n_size]. rewrite app_nil_r. repeat split; try easy.
      cbn [n_size n_r n_w]. rewrite app_nil_r. easy.
    + destruct (nodes_take (n_w q) [] (n_rnums q) n) as [[w r] c] eqn:Et. cbn [fst snd n_r n_w].
      destruct (nodes_take_spec _ _ _ _ _ _ _ Et) as [A B]. cbn [app length] in *.
      split; [split; cbn [n_rnums n_r n_size n_w]; [lia|rewrite <- A; easy]|].
      split; [easy|]. split; [lia|]. split; [easy|]. split; [easy|].
      intros _ _ Hw. destruct (n_w q) as [|o w0]; [easy|]. cbn [nodes_take] in Et.
      destruct (n <=? n_rnums q + 1).
      * injection Et as _ <- _. easy.
      * destruct (nodes_take_spec _ _ _ _ _ _ _ Et) as [A' B']. destruct r; [|easy].
        cbn [app length] in B'. cbn [length] in B. 
        assert (n_rnums q + 1 <= c) by (clear - Et; revert Et; generalize ([] ++ [o]); generalize (n_rnums q + 1);
          induction w0 as [|x w0 IH]; intros z l Et; cbn [nodes_take] in Et;
          [injection Et as _ _ <-; lia|destruct (n <=? z + 1); [injection Et as _ _ <-; lia|apply IH in Et; lia]]).
        lia.
Qed.

Lemma nodes_run_inv : forall l q q' done, ninv q -> nodes_run q l = (q', done) ->
  ninv q' /\ n_r q ++ n_w q ++ qpushed l = done ++ n_r q' ++ n_w q'.
Proof.
  induction l as [|o l IH]; intros q q' done Hi H; cbn [nodes_run qpushed] in H |- *.
  - injection H as <- <-. rewrite app_nil_r. easy.
  - destruct o as [o|n|].
    + apply IH in H.
      * destruct H as [A B]. split; [easy|]. cbn [n_w n_r nodes_push] in B. rewrite <- app_assoc in B. exact B.
      * destruct Hi as [I1 I2]. split; cbn [nodes_push n_rnums n_r n_size n_w]; [easy|].
        rewrite app_assoc, total_app, I2. unfold total at 3. cbn [fold_right]. lia.
    + destruct (nodes_read_inv q n Hi) as [A [B _]]. apply IH in H; [|easy]. destruct H as [C D]. split; [easy|].
      rewrite app_assoc, B in D. rewrite app_assoc. exact D.
    + destruct (nodes_run (fst (nodes_free q)) l) as [q2 d2] eqn:E. injection H as <- <-.
      apply IH in E.
      * destruct E as [A B]. split; [easy|]. cbn [nodes_free fst n_r n_w app] in B. rewrite <- app_assoc, <- B. easy.
      * destruct Hi as [I1 I2]. split; cbn [nodes_free fst n_rnums n_r n_size n_w app]; [easy|].
        rewrite I2, total_app. unfold total. lia.
Qed.

(** ** slots *)
Lemma upd_len : forall A (l : list A) i v, length (upd l i v) = length l.
Proof. induction l as [|x l IH]; intros [|i] v; cbn; auto. Qed.
Lemma upd_nth : forall A (l : list A) i v j, (i < length l)%nat ->
  nth_error (upd l i v) j = if Nat.eqb j i then Some v else nth_error l j.
Proof.
  induction l as [|x l IH]; intros i v j H; cbn [length] in H; [lia|].
  destruct i as [|i]; destruct j as [|j]; cbn [upd nth_error Nat.eqb]; try easy.
  apply IH. lia.
Qed.

Definition live_of (q : nlist) : livemap := fun i =>
  if i <? 0 then None
  else match nth_error (nl_slots q) (Z.to_nat i) with
       | Some s => if sl_used s =? USEED then Some (sl_ptr s) else None
       | None => None
       end.

Definition linv (q : nlist) : Prop := nl_max q = 1024 /\ length (nl_slots q) = Z.to_nat 1024.

Lemma nl_scan_spec : forall l i now wait k, nl_scan l i now wait = Some k ->
  (i <= k < i + length l)%nat /\ exists s, nth_error l (k - i) = Some s /\ sl_used s <> USEED.
Proof.
  induction l as [|s l IH]; intros i now wait k H; cbn [nl_scan] in H; [easy|].
  destruct (Z.eqb_spec (sl_used s) NOUSE) as [E|E].
  - injection H as <-. cbn [length]. split; [lia|]. exists s. rewrite Nat.sub_diag. split; [easy|].
    rewrite E. unfold NOUSE, USEED. lia.
  - destruct ((0 <? wait) && (sl_used s =? CLOSED) && (wait <? now - sl_stop s)) eqn:E2.
    + injection H as <-. cbn [length]. split; [lia|]. exists s. rewrite Nat.sub_diag. split; [easy|].
      assert (sl_used s = CLOSED) by lia. unfold CLOSED, USEED in *. lia.
    + destruct (IH _ _ _ _ H) as [A [s' [B C]]]. cbn [length]. split; [lia|]. exists s'. split; [|easy].
      replace (k - i)%nat with (S (k - S i)) by lia. exact B.
Qed.

Lemma live_upd : forall q i s, (i < length (nl_slots q))%nat ->
  forall j, live_of (mknl (nl_max q) (upd (nl_slots q) i s) (nl_wait q)) j =
    set_live (live_of q) (Z.of_nat i) (if sl_used s =? USEED then Some (sl_ptr s) else None) j.
Proof.
  intros q i s H j. unfold live_of, set_live. cbn [nl_slots].
  destruct (j <? 0) eqn:Ej.
  - destruct (Z.eqb_spec j (Z.of_nat i)); [lia|easy].
  - rewrite upd_nth by easy. destruct (Nat.eqb_spec (Z.to_nat j) i); destruct (Z.eqb_spec j (Z.of_nat i)); try easy; lia.
Qed.

Lemma accepts_ext : forall f ops outs f', accepts f ops outs f' -> forall g, (forall i, f i = g i) ->
  exists g', accepts g ops outs g' /\ forall i, f' i = g' i.
Proof.
  intros f ops outs f' H. induction H; intros g Hg.
  - exists g. split; [constructor|easy].
  - destruct (IHaccepts (set_live g i (Some p))) as [g' [A B]].
    { intros j. unfold set_live. destruct (j =? i); auto. }
    exists g'. split; [|easy]. constructor; [easy|now rewrite <- Hg|easy].
  - destruct (IHaccepts (set_live g i None)) as [g' [A B]].
    { intros j. unfold set_live. destruct (j =? i); auto. }
    exists g'. split; [|easy]. econstructor; [rewrite <- Hg; eauto|easy].
  - destruct (IHaccepts g Hg) as [g' [A B]]. exists g'. split; [|easy]. constructor; [now rewrite <- Hg|easy].
  - destruct (IHaccepts g Hg) as [g' [A B]]. exists g'. split; [|easy]. rewrite (Hg i). now constructor.
Qed.

Lemma nl_new_inv : forall q now p q' i, linv q -> nl_new q now p = Some (q', i) ->
  linv q' /\ 0 <= i /\ live_of q i = None /\ forall j, live_of q' j = set_live (live_of q) i (Some p) j.
Proof.
  intros q now p q' i [I1 I2] H. unfold nl_new in H.
  destruct (nl_scan (nl_slots q) 0 now (nl_wait q)) as [k|] eqn:E.
  - destruct (nl_scan_spec _ _ _ _ _ E) as [A [s [B C]]]. rewrite Nat.sub_0_r in B. unfold nl_put in H.
    destruct (Nat.ltb_spec k (length (nl_slots q))) as [Hk|Hk]; [|easy]. injection H as <- <-.
    split; [split; cbn [nl_max nl_slots]; rewrite ?upd_len; easy|]. split; [lia|]. split.
    + unfold live_of. destruct (Z.of_nat k <? 0); [easy|]. rewrite Nat2Z.id, B.
      destruct (Z.eqb_spec (sl_used s) USEED); easy.
    + intros j. rewrite live_upd by easy. cbn [sl_used sl_ptr]. rewrite Z.eqb_refl. easy.
  - destruct (nl_max q =? Z.of_nat (length (nl_slots q))); [|easy]. unfold nl_put, nl_grow in H.
    destruct (nl_max q <? nl_max q + 1) eqn:E1; [|lia]. cbn [nl_slots nl_max nl_wait] in H. rewrite map_length in H.
    destruct (Nat.ltb_spec (Z.to_nat (nl_max q)) (length (nl_slots q))); [|easy]. rewrite I1, I2 in *. lia.
Qed.

Lemma nl_run_inv : forall ops q q' outs, linv q -> nl_run q ops = Some (q', outs) ->
  exists f', accepts (live_of q) ops outs f' /\ forall i, f' i = live_of q' i.
Proof.
  induction ops as [|o ops IH]; intros q q' outs Hi H; cbn [nl_run] in H.
  - injection H as <- <-. exists (live_of q). split; [constructor|easy].
  - destruct (nl_step q o) as [[q1 x]|] eqn:E; [|easy].
    destruct (nl_run q1 ops) as [[q2 xs]|] eqn:E2; [|easy]. injection H as <- <-.
    destruct o as [now p|now i|i]; cbn [nl_step] in E.
    + destruct (nl_new q now p) as [[qn i]|] eqn:En; [|easy]. injection E as <- <-.
      destruct (nl_new_inv _ _ _ _ _ Hi En) as [A [B [C D]]].
      destruct (IH _ _ _ A E2) as [f' [F G]]. destruct (accepts_ext _ _ _ _ F _ D) as [g' [P Q]].
      exists g'. split; [constructor; easy|]. intros j. rewrite <- Q. apply G.
    + unfold nl_stop in E. destruct Hi as [I1 I2].
      destruct ((i <? 0) || (nl_max q <=? i)) eqn:Er.
      * injection E as <- <-. destruct (IH q q2 xs (conj I1 I2) E2) as [f' [F G]]. exists f'. split; [|easy].
        apply acc_stop_no; [|easy]. unfold live_of. destruct (i <? 0) eqn:E0; [easy|].
        replace (nth_error (nl_slots q) (Z.to_nat i)) with (@None slot); [easy|].
        symmetry. apply nth_error_None. lia.
      * destruct (nth_error (nl_slots q) (Z.to_nat i)) as [s|] eqn:En; [|easy].
        destruct (Z.eqb_spec (sl_used s) USEED) as [Eu|Eu].
        -- injection E as <- <-.
           assert (Hl : live_of q i = Some (sl_ptr s)).
           { unfold live_of. destruct (i <? 0) eqn:E0; [lia|]. rewrite En, Eu, Z.eqb_refl. easy. }
           assert (Hlen : (Z.to_nat i < length (nl_slots q))%nat) by (apply nth_error_Some; congruence).
           set (s' := if 0 <? nl_wait q then mkslot CLOSED now (sl_ptr s) else mkslot NOUSE 0 0) in *.
           assert (D : forall j, live_of (mknl (nl_max q) (upd (nl_slots q) (Z.to_nat i) s') (nl_wait q)) j = set_live (live_of q) i None j).
           { intros j. rewrite live_upd by easy. rewrite Z2Nat.id by lia.
             replace (sl_used s' =? USEED) with false; [easy|]. unfold s'. destruct (0 <? nl_wait q); reflexivity. }
           destruct (IH _ _ _ (conj I1 (eq_trans (upd_len _ _ _ _) I2) : linv (mknl (nl_max q) (upd (nl_slots q) (Z.to_nat i) s') (nl_wait q))) E2) as [f' [F G]].
           destruct (accepts_ext _ _ _ _ F _ D) as [g' [P Q]]. exists g'.
           split; [econstructor; eauto|]. intros j. rewrite <- Q. apply G.
        -- injection E as <- <-. destruct (IH q q2 xs (conj I1 I2) E2) as [f' [F G]]. exists f'. split; [|easy].
           apply acc_stop_no; [|easy]. unfold live_of. destruct (i <? 0); [easy|]. rewrite En.
           destruct (Z.eqb_spec (sl_used s) USEED); easy.
    + unfold nl_get in E. destruct (IH q q2 xs Hi) as [f' [F G]].
      { destruct ((i <? 0) || (nl_max q <=? i)); [injection E as <- _; exact E2|].
        destruct (nth_error (nl_slots q) (Z.to_nat i)) as [s|]; [|easy].
        destruct (sl_used s =? USEED); injection E as <- _; exact E2. }
      exists f'. split; [|easy].
      replace x with (RGet (match live_of q i with Some p => p | None => 0 end)).
      * assert (q1 = q) as ->; [|now constructor].
        destruct ((i <? 0) || (nl_max q <=? i)); [now injection E as <- _|].
        destruct (nth_error (nl_slots q) (Z.to_nat i)) as [s|]; [|easy].
        destruct (sl_used s =? USEED); now injection E as <- _.
      * destruct Hi as [I1 I2]. unfold live_of. destruct ((i <? 0) || (nl_max q <=? i)) eqn:Er.
        -- injection E as _ <-. destruct (i <? 0) eqn:E0; [easy|].
           replace (nth_error (nl_slots q) (Z.to_nat i)) with (@None slot); [easy|].
           symmetry. apply nth_error_None. lia.
        -- destruct (i <? 0) eqn:E0; [lia|]. destruct (nth_error (nl_slots q) (Z.to_nat i)) as [s|]; [|easy].
           destruct (sl_used s =? USEED); injection E as _ <-; easy.
Qed.

(** while fewer than 1024 slots have been taken, a register succeeds *)
Definition isfree (s : slot) : bool := sl_used s =? NOUSE.
Definition fresh (q : nlist) : nat := length (filter isfree (nl_slots q)).
Lemma scan_fresh : forall l i now wait, (0 < length (filter isfree l))%nat ->
  exists k, nl_scan l i now wait = Some k.
Proof.
  induction l as [|s l IH]; intros i now wait H; cbn [filter nl_scan] in *; [cbn in H; lia|]. unfold isfree at 1 in H.
  destruct (sl_used s =? NOUSE); [eauto|].
  destruct ((0 <? wait) && (sl_used s =? CLOSED) && (wait <? now - sl_stop s)); [eauto|]. apply IH. easy.
Qed.
Lemma upd_fresh : forall l i s, (i < length l)%nat -> 
  (length (filter isfree l) <= S (length (filter isfree (upd l i s))))%nat.
Proof.
  induction l as [|x l IH]; intros i s H; cbn [length] in H; [lia|].
  destruct i as [|i]; cbn [upd filter].
  - destruct (isfree x), (isfree s); cbn [length]; lia.
  - specialize (IH i s ltac:(lia)). destruct (isfree x); cbn [length]; lia.
Qed.
Lemma upd_fresh_used : forall l i s x, nth_error l i = Some x -> sl_used x <> NOUSE ->
  (length (filter isfree l) <= length (filter isfree (upd l i s)))%nat.
Proof.
  induction l as [|y l IH]; intros [|i] s x H Hx; cbn [nth_error] in H; try easy; cbn [upd filter].
  - injection H as ->. replace (isfree x) with false by (unfold isfree; lia). destruct (isfree s); cbn [length]; lia.
  - specialize (IH i s x H Hx). destruct (isfree y); cbn [length]; lia.
Qed.

Lemma nl_run_safe : forall ops q, linv q -> (registrations ops <= fresh q)%nat -> nl_run q ops <> None.
Proof.
  induction ops as [|o ops IH]; intros q Hi Hf; cbn [nl_run]; [easy|]. pose proof Hi as [I1 I2].
  assert (K : forall q1 x, nl_step q o = Some (q1, x) -> linv q1 -> (registrations ops <= fresh q1)%nat ->
     match nl_step q o with
     | Some (q', x) => match nl_run q' ops with Some (q2, xs) => Some (q2, x :: xs) | None => None end
     | None => None end <> None).
  { intros q1 x E A B. rewrite E. specialize (IH q1 A B). destruct (nl_run q1 ops) as [[? ?]|]; easy. }
  destruct o as [now p|now i|i]; cbn [registrations] in Hf.
  - assert (Hs : (0 < fresh q)%nat) by lia. unfold fresh in Hs.
    destruct (scan_fresh _ 0 now (nl_wait q) Hs) as [k Ek].
    destruct (nl_scan_spec _ _ _ _ _ Ek) as [A _]. assert (Hk : (k < length (nl_slots q))%nat) by lia.
    assert (E : exists q1 x, nl_new q now p = Some (q1, x) /\ (fresh q <= S (fresh q1))%nat).
    { unfold nl_new. rewrite Ek. unfold nl_put. destruct (Nat.ltb_spec k (length (nl_slots q))); [|lia].
      eexists. eexists. split; [reflexivity|]. unfold fresh. cbn [nl_slots]. now apply upd_fresh. }
    destruct E as [q1 [x [E Hfr]]]. apply (K q1 (RNew x)).
    + cbn [nl_step]. now rewrite E.
    + eapply nl_new_inv; eauto.
    + lia.
  - cbn [nl_step]. unfold nl_stop. 
    destruct ((i <? 0) || (nl_max q <=? i)) eqn:Er.
    { specialize (IH q Hi Hf). destruct (nl_run q ops) as [[? ?]|]; easy. }
    destruct (nth_error (nl_slots q) (Z.to_nat i)) as [s|] eqn:En.
    2:{ apply nth_error_None in En. lia. }
    destruct (Z.eqb_spec (sl_used s) USEED) as [Eu|Eu].
    2:{ specialize (IH q Hi Hf). destruct (nl_run q ops) as [[? ?]|]; easy. }
    set (s' := if 0 <? nl_wait q then mkslot CLOSED now (sl_ptr s) else mkslot NOUSE 0 0).
    assert (X : nl_run (mknl (nl_max q) (upd (nl_slots q) (Z.to_nat i) s') (nl_wait q)) ops <> None).
    { apply IH.
      - split; cbn [nl_max nl_slots]; rewrite ?upd_len; easy.
      - unfold fresh in *. cbn [nl_slots]. eapply Nat.le_trans; [exact Hf|]. eapply upd_fresh_used; [exact En|].
        rewrite Eu. unfold USEED, NOUSE. lia. }
    destruct (nl_run (mknl (nl_max q) (upd (nl_slots q) (Z.to_nat i) s') (nl_wait q)) ops) as [[? ?]|]; easy.
  - cbn [nl_step]. unfold nl_get.
    specialize (IH q Hi Hf). destruct (nl_run q ops) as [[? ?]|] eqn:Eo; [|easy].
    destruct ((i <? 0) || (nl_max q <=? i)) eqn:Er; [rewrite Eo; easy|].
    destruct (nth_error (nl_slots q) (Z.to_nat i)) as [s|] eqn:En.
    2:{ apply nth_error_None in En. lia. }
    destruct (sl_used s =? USEED); rewrite Eo; easy.
Qed.

Lemma nl_create_inv : linv nl_create.
Proof. split; [reflexivity|]. unfold nl_create. cbn [nl_slots]. rewrite repeat_length. reflexivity. Qed.
Lemma nl_create_fresh : fresh nl_create = Z.to_nat 1024.
Proof. vm_compute. reflexivity. Qed.
Lemma nl_create_live : forall i, live_of nl_create i = None.
Proof.
  intros i. unfold live_of. destruct (i <? 0); [easy|].
  destruct (nth_error (nl_slots nl_create) (Z.to_nat i)) as [s|] eqn:E; [|easy].
  apply nth_error_In in E. unfold nl_create in E. cbn [nl_slots] in E. apply repeat_spec in E. subst s. reflexivity.
Qed.

Lemma nodes_take_firstn : forall w r c n, c < n ->
  snd (fst (nodes_take w r c n)) = r ++ firstn (Z.to_nat (n - c)) w.
Proof.
  induction w as [|o w IH]; intros r c n H; cbn [nodes_take].
  - rewrite firstn_nil, app_nil_r. reflexivity.
  - replace (Z.to_nat (n - c)) with (S (Z.to_nat (n - (c + 1)))) by lia. rewrite firstn_cons.
    destruct (n <=? c + 1) eqn:E.
    + replace (Z.to_nat (n - (c + 1))) with 0%nat by lia. reflexivity.
    + rewrite IH by lia. now rewrite <- app_assoc.
Qed.

Lemma nodes_read_firstn : forall q n, ninv q -> n_r q = [] -> 0 < n ->
  n_r (fst (nodes_read q n)) = firstn (Z.to_nat n) (n_w q).
Proof.
  intros q n [I1 I2] Hr Hn. unfold nodes_read. rewrite Hr in I1. cbn [length] in I1.
  replace (0 <? n_rnums q) with false by lia. replace (n =? 0) with false by lia.
  pose proof (nodes_take_firstn (n_w q) (n_r q) (n_rnums q) n ltac:(lia)) as K.
  destruct (nodes_take (n_w q) (n_r q) (n_rnums q) n) as [[w r] c]. cbn [fst snd n_r] in *. rewrite K, Hr.
  replace (n - n_rnums q) with n by lia. reflexivity.
Qed.

Lemma c24_main : forall ops q done, nodes_run nodes_create ops = (q, done) ->
  qpushed ops = done ++ n_r q ++ n_w q /\
  nodes_count q = Z.of_nat (length (n_r q ++ n_w q)) /\
  n_size q = total (n_r q ++ n_w q) /\
  forall n, 0 <= n ->
    n_r (fst (nodes_read q n)) ++ n_w (fst (nodes_read q n)) = n_r q ++ n_w q /\
    snd (nodes_read q n) = Z.of_nat (length (n_r (fst (nodes_read q n)))) /\
    n_r (fst (nodes_read q n)) =
      match n_r q with
      | [] => if n =? 0 then n_w q else firstn (Z.to_nat n) (n_w q)
      | batch => batch
      end.
Proof.
  intros ops q done H.
  assert (I0 : ninv nodes_create) by (vm_compute; easy).
  destruct (nodes_run_inv _ _ _ _ I0 H) as [I E]. cbn [nodes_create n_r n_w app] in E.
  split; [exact E|]. pose proof I as [I1 I2].
  split; [unfold nodes_count; rewrite app_length; lia|]. split; [exact I2|].
  intros n Hn. destruct (nodes_read_inv q n I) as [_ [A [B [C [D _]]]]].
  split; [exact A|]. split; [exact B|].
  destruct (n_r q) as [|o r] eqn:Er.
  - destruct (Z.eqb_spec n 0) as [Z0|Z0].
    + rewrite (D eq_refl Z0), app_nil_r in A. exact A.
    + apply nodes_read_firstn; [exact I|exact Er|lia].
  - rewrite C by discriminate. exact Er.
Qed.
