(** Lemmas on the list with many readers. *)
From Verif Require Import Base S_bcast M_bcast.
From Coq Require Import ZifyBool ZifyNat.

Lemma nth_set : forall l i r j, nth_error (set_rd l i r) j =
  if Nat.eqb j i then match nth_error l i with Some _ => Some r | None => None end else nth_error l j.
Proof.
  induction l as [|x l IH]; intros i r j; cbn [set_rd].
  - destruct (Nat.eqb j i); destruct j; destruct i; reflexivity.
  - destruct i as [|i]; destruct j as [|j]; cbn [nth_error Nat.eqb]; try reflexivity. apply IH.
Qed.

Definition seg (msgs : list Z) (f p : nat) : list Z := firstn (p - f) (skipn f msgs).
Lemma seg_push : forall msgs m f p, (p <= length msgs)%nat -> seg (msgs ++ [m]) f p = seg msgs f p.
Proof.
  intros msgs m f p L. unfold seg. destruct (Nat.le_gt_cases f (length msgs)) as [F|F].
  - rewrite skipn_app. replace (f - length msgs)%nat with 0%nat by lia. cbn [skipn]. rewrite firstn_app, skipn_length.
    replace (p - f - (length msgs - f))%nat with 0%nat by lia. cbn [firstn]. apply app_nil_r.
  - replace (p - f)%nat with 0%nat by lia. reflexivity.
Qed.
Lemma seg_next : forall msgs f p, (f <= p)%nat -> (p < length msgs)%nat -> seg msgs f (S p) = seg msgs f p ++ [nth p msgs 0].
Proof.
  intros msgs f p F L. unfold seg. replace (S p - f)%nat with (S (p - f)) by lia.
  assert (G : forall n (l : list Z), (n < length l)%nat -> firstn (S n) l = firstn n l ++ [nth n l 0]).
  { induction n as [|n IH]; intros [|x l] H; cbn [length] in H; try lia; [reflexivity|].
    change (firstn (S (S n)) (x :: l)) with (x :: firstn (S n) l). rewrite IH by lia. reflexivity. }
  rewrite G by (rewrite skipn_length; lia). f_equal. f_equal.
  rewrite <- (firstn_skipn f msgs) at 2. rewrite app_nth2; rewrite firstn_length; [|lia]. f_equal. lia.
Qed.
Lemma seg_follows : forall msgs f p, follows f msgs (seg msgs f p).
Proof. intros. exists (skipn (p - f) (skipn f msgs)). unfold seg. symmetry. apply firstn_skipn. Qed.
Lemma follows_push : forall f msgs m out, (f <= length msgs)%nat -> follows f msgs out -> follows f (msgs ++ [m]) out.
Proof.
  intros f msgs m out L [rest E]. exists (rest ++ [m]). rewrite skipn_app. replace (f - length msgs)%nat with 0%nat by lia.
  cbn [skipn]. rewrite E, app_assoc. reflexivity.
Qed.

(** how far reader [i] must have come *)
Definition limit (mode : save) (w : option nat) (p : wpc) (i : nat) : nat :=
  match mode with
  | KeepAll => 0
  | _ => match w with
         | None => 1
         | Some c => match p with
                     | WPop | WRel _ | WMove => S c
                     | WCheck k => if (i <? k)%nat then S c else c
                     | _ => c
                     end
         end
  end.
Definition kept (msgs : list Z) (r : reader) : Prop :=
  match r_from r with Some f => (f <= length msgs)%nat /\ follows f msgs (r_out r) | None => r_out r = [] end.
Definition rdok (msgs : list Z) (lim : nat) (r : reader) : Prop :=
  match r_cur r, r_from r with
  | None, None => r_pc r = RIdle /\ r_out r = []
  | Some p, Some f =>
    (f <= p <= length msgs)%nat /\ (lim <= p)%nat /\
    match r_pc r with
    | RIdle => r_out r = seg msgs f p
    | RGot x => x = S p /\ (x <= length msgs)%nat /\ r_out r = seg msgs f p
    | RUse x m => x = S p /\ (x <= length msgs)%nat /\ m = nth p msgs 0 /\ r_out r = seg msgs f p
    | RSet x => x = S p /\ (x <= length msgs)%nat /\ r_out r = seg msgs f x
    end
  | _, _ => False
  end.
Lemma rdok_kept : forall msgs lim r, rdok msgs lim r -> kept msgs r.
Proof.
  intros msgs lim r H. unfold rdok, kept in *. destruct (r_cur r) as [p|], (r_from r) as [f|]; try contradiction; [|apply H].
  destruct H as (H1 & H2 & H3). split; [lia|]. destruct (r_pc r); [|destruct H3 as (_ & _ & H3)|destruct H3 as (_ & _ & _ & H3)|destruct H3 as (_ & _ & H3)];
    rewrite H3; apply seg_follows.
Qed.
Lemma rdok_lim : forall msgs lim lim' r, (forall p, r_cur r = Some p -> (lim <= p)%nat -> (lim' <= p)%nat) -> rdok msgs lim r -> rdok msgs lim' r.
Proof.
  intros msgs lim lim' r L H. unfold rdok in *. destruct (r_cur r) as [p|], (r_from r) as [f|]; try exact H.
  destruct H as (H1 & H2 & H3). split; [exact H1|]. split; [apply (L p eq_refl H2)|exact H3].
Qed.

Definition wok (mode : save) (s : bst) : Prop :=
  let n := length (b_msgs s) in let h := b_h s in
  match mode with
  | KeepAll => b_w s = None /\ b_wpc s = WIdle /\ h = 0%nat
  | _ =>
    match b_w s with
    | None => h = 0%nat /\ b_wpc s = WIdle
    | Some c =>
      match b_wpc s with
      | WRel k => k = h /\ (h <= c < n)%nat
      | WMove => (h <= c < n)%nat
      | WCheck _ | WPop => (h < c < n)%nat
      | _ => (h < c <= n)%nat
      end
    end
  end.
Definition inv (mode : save) (s : bst) : Prop :=
  b_bad s = false /\ (b_rel s <= b_h s <= length (b_msgs s))%nat /\ (forall k, In k (b_null s) -> (k <= b_h s)%nat) /\ wok mode s /\
  forall i r, nth_error (b_rd s) i = Some r ->
    if r_closed r then kept (b_msgs s) r else rdok (b_msgs s) (limit mode (b_w s) (b_wpc s) i) r.

(** Every open reader with a place in the list is registered, and, unless everything is kept, it reads from
    the tail and took its place after the first message was pushed. *)
Definition careful (mode : save) (s : bst) : Prop :=
  forall r, In r (b_rd s) -> r_closed r = false -> forall f, r_from r = Some f ->
    r_reg r = true /\ (mode = KeepAll \/ r_head r = false /\ (1 <= f)%nat).

Lemma above : forall mode s p i, inv mode s -> (limit mode (b_w s) (b_wpc s) i <= p)%nat -> (b_h s <= p)%nat.
Proof.
  intros mode s p i (_ & _ & _ & W & _) L. unfold wok, limit in *. destruct mode; [lia| |];
    (destruct (b_w s) as [c|]; [|lia]; destruct (b_wpc s); try lia; destruct (i <? _)%nat; lia).
Qed.
Lemma null_false : forall mode s x, inv mode s -> (b_h s < x)%nat -> is_null s x = false.
Proof.
  intros mode s x (_ & _ & N & _) H. unfold is_null. destruct (existsb (Nat.eqb x) (b_null s)) eqn:E; [|reflexivity].
  apply existsb_exists in E. destruct E as (k & K & E). apply Nat.eqb_eq in E. subst k. specialize (N x K). lia.
Qed.

(** a step that changes only one reader *)
Lemma with_rd_inv : forall mode s i r0 r bad, inv mode s -> nth_error (b_rd s) i = Some r0 -> bad = false ->
  (if r_closed r then kept (b_msgs s) r else rdok (b_msgs s) (limit mode (b_w s) (b_wpc s) i) r) -> inv mode (with_rd s i r bad).
Proof.
  intros mode s i r0 r bad (I1 & I2 & I3 & I4 & I5) N -> R. unfold inv, with_rd, wok in *. cbn [b_msgs b_null b_h b_rel b_w b_wpc b_size b_rd b_bad] in *.
  rewrite orb_false_r. split; [exact I1|]. split; [exact I2|]. split; [exact I3|]. split; [exact I4|].
  intros j x X. rewrite nth_set in X. destruct (Nat.eqb j i) eqn:E.
  - apply Nat.eqb_eq in E. subst j. rewrite N in X. injection X as <-. exact R.
  - apply I5, X.
Qed.

Lemma read_keeps : forall mode s i r, inv mode s -> careful mode (read_step s i r) -> nth_error (b_rd s) i = Some r -> r_closed r = false ->
  inv mode (read_step s i r).
Proof.
  intros mode s i r I C N CL. pose proof I as (I1 & I2 & I3 & I4 & I5). specialize (I5 i r N) as R. rewrite CL in R.
  unfold read_step in *. destruct (r_pc r) as [|x|x m|x] eqn:PC.
  - destruct (r_cur r) as [p|] eqn:CUR.
    + pose proof R as R0. unfold rdok in R. rewrite CUR, PC in R. destruct (r_from r) as [f|] eqn:FR; [|contradiction]. destruct R as (R1 & R2 & R3).
      assert (F : freed s p = false) by (unfold freed; pose proof (above mode s p i I R2); lia).
      destruct (p <? last_node s)%nat eqn:L.
      * apply (with_rd_inv mode s i r); auto. cbn [at_pc r_closed]. rewrite CL. unfold rdok. cbn [at_pc r_cur r_from r_pc r_out]. rewrite CUR, FR.
        unfold last_node in L. split; [exact R1|]. split; [exact R2|]. split; [reflexivity|]. split; [lia|exact R3].
      * apply (with_rd_inv mode s i r); auto. rewrite CL. exact R0.
    + unfold rdok in R. rewrite CUR in R. destruct (r_from r) as [f|] eqn:FR; [contradiction|]. destruct R as (_ & R).
      set (c := if r_head r then b_h s else last_node s) in *.
      apply (with_rd_inv mode s i r); auto. cbn [r_closed]. rewrite CL.
      set (r' := mkrd (r_head r) (r_reg r) (r_closed r) (Some c) RIdle (Some c) (r_open r) (r_out r)) in *.
      assert (IN : In r' (b_rd (with_rd s i r' false))).
      { apply (nth_error_In _ i). unfold with_rd. cbn [b_rd]. rewrite nth_set, Nat.eqb_refl, N. reflexivity. }
      destruct (C r' IN CL c eq_refl) as (_ & C2).
      unfold rdok, r'. cbn [r_cur r_from r_pc r_out]. rewrite R. unfold seg. rewrite Nat.sub_diag. cbn [firstn].
      assert (CN : (c <= length (b_msgs s))%nat) by (unfold c, last_node; destruct (r_head r); lia).
      split; [lia|]. split; [|reflexivity]. unfold limit. destruct C2 as [->|[C2 C3]]; [lia|].
      unfold r' in C2. cbn [r_head] in C2. assert (c = length (b_msgs s)) as E by (unfold c; rewrite C2; reflexivity).
      unfold wok in I4. destruct mode; [lia| |]; (destruct (b_w s) as [k|]; [|lia]; destruct (b_wpc s); try lia; destruct (i <? _)%nat; lia).
  - unfold rdok in R. rewrite PC in R. destruct (r_cur r) as [p|] eqn:CUR, (r_from r) as [f|] eqn:FR; try contradiction; try (destruct R; discriminate).
    destruct R as (R1 & R2 & R3 & R4 & R5). pose proof (above mode s p i I R2) as A.
    apply (with_rd_inv mode s i r); auto; [unfold freed; lia|]. cbn [at_pc r_closed]. rewrite CL.
    rewrite (null_false mode s x I) by lia. unfold rdok. cbn [at_pc r_cur r_from r_pc r_out]. rewrite CUR, FR.
    split; [exact R1|]. split; [exact R2|]. split; [exact R3|]. split; [exact R4|]. split; [|exact R5].
    unfold msg. rewrite R3. f_equal. lia.
  - unfold rdok in R. rewrite PC in R. destruct (r_cur r) as [p|] eqn:CUR, (r_from r) as [f|] eqn:FR; try contradiction; try (destruct R; discriminate).
    destruct R as (R1 & R2 & R3 & R4 & R5 & R6). pose proof (above mode s p i I R2) as A.
    apply (with_rd_inv mode s i r); auto; [lia|]. cbn [r_closed]. rewrite CL. unfold rdok. cbn [r_cur r_from r_pc r_out].
    split; [exact R1|]. split; [exact R2|]. split; [exact R3|]. split; [exact R4|]. rewrite R3, R5, R6, seg_next by lia. reflexivity.
  - unfold rdok in R. rewrite PC in R. destruct (r_cur r) as [p|] eqn:CUR, (r_from r) as [f|] eqn:FR; try contradiction; try (destruct R; discriminate).
    destruct R as (R1 & R2 & R3 & R4 & R5).
    apply (with_rd_inv mode s i r); auto. cbn [r_closed]. rewrite CL. unfold rdok. cbn [r_cur r_from r_pc r_out]. split; [lia|]. split; [lia|exact R5].
Qed.

(** a step that changes only the watcher *)
Lemma watcher_inv : forall mode s s', inv mode s -> b_msgs s' = b_msgs s -> b_rd s' = b_rd s -> b_bad s' = false ->
  (b_rel s' <= b_h s' <= length (b_msgs s))%nat -> (forall k, In k (b_null s') -> (k <= b_h s')%nat) -> wok mode s' ->
  (forall i r p, nth_error (b_rd s) i = Some r -> r_closed r = false -> r_cur r = Some p ->
     (limit mode (b_w s) (b_wpc s) i <= p)%nat -> (limit mode (b_w s') (b_wpc s') i <= p)%nat) -> inv mode s'.
Proof.
  intros mode s s' (I1 & I2 & I3 & I4 & I5) M D B R N W L. unfold inv. rewrite M, D. split; [exact B|]. split; [exact R|]. split; [exact N|].
  split; [exact W|]. intros i r X. specialize (I5 i r X). destruct (r_closed r) eqn:C; [exact I5|].
  apply (rdok_lim _ _ _ _ (fun p => L i r p X C) I5).
Qed.
Ltac wi mode s I I2 I3 :=
  apply (watcher_inv mode s); [exact I|reflexivity|reflexivity|..];
  cbn [with_w b_bad b_w b_wpc b_h b_rel b_msgs b_null]; try exact I2; try exact I3.
Lemma watch_keeps : forall mode mx size s s', inv mode s -> careful mode s -> watch_step mode mx size s = Some s' -> inv mode s'.
Proof.
  intros mode mx size s s' I C E. pose proof I as (I1 & I2 & I3 & I4 & I5). unfold watch_step in E. unfold wok in I4.
  destruct (match mode with KeepAll => true | _ => false end) eqn:MD.
  { destruct mode; try discriminate MD. destruct I4 as (_ & W & _). rewrite W in E. injection E as <-. exact I. }
  assert (I4' : match b_w s with
    | None => b_h s = 0%nat /\ b_wpc s = WIdle
    | Some c => match b_wpc s with
      | WRel k => k = b_h s /\ (b_h s <= c < length (b_msgs s))%nat
      | WMove => (b_h s <= c < length (b_msgs s))%nat
      | WCheck _ | WPop => (b_h s < c < length (b_msgs s))%nat
      | _ => (b_h s < c <= length (b_msgs s))%nat end end) by (destruct mode; [discriminate MD|exact I4|exact I4]). clear I4.
  assert (LIM : forall w p i, limit mode w p i = match w with None => 1%nat | Some c => match p with WPop | WRel _ | WMove => S c
     | WCheck k => if (i <? k)%nat then S c else c | _ => c end end) by (intros; unfold limit; destruct mode; [discriminate MD|reflexivity|reflexivity]).
  assert (WOK : forall s2, match b_w s2 with
    | None => b_h s2 = 0%nat /\ b_wpc s2 = WIdle
    | Some c => match b_wpc s2 with
      | WRel k => k = b_h s2 /\ (b_h s2 <= c < length (b_msgs s2))%nat
      | WMove => (b_h s2 <= c < length (b_msgs s2))%nat
      | WCheck _ | WPop => (b_h s2 < c < length (b_msgs s2))%nat
      | _ => (b_h s2 < c <= length (b_msgs s2))%nat end end -> wok mode s2) by (intros; unfold wok; destruct mode; [discriminate MD|assumption|assumption]).
  destruct (b_wpc s) as [| |k| |k|] eqn:PC.
  - assert (E' : match (match b_w s with None => if (b_h s <? last_node s)%nat then Some (S (b_h s)) else None | c => c end) with
                 | None => Some s | Some c => Some (with_w s (Some c) WNext false) end = Some s') by (destruct mode; [discriminate MD|exact E|exact E]).
    clear E. unfold last_node in E'. destruct (b_w s) as [c|] eqn:W.
    + injection E' as <-. wi mode s I I2 I3; [rewrite I1; reflexivity|apply WOK; exact I4'|].
      intros i r p _ _ _. rewrite W, PC, !LIM. lia.
    + destruct (b_h s <? length (b_msgs s))%nat eqn:L; injection E' as <-; [|exact I].
      wi mode s I I2 I3; [rewrite I1; reflexivity|apply WOK; cbn; lia|].
      intros i r p _ _ _. rewrite W, !LIM. lia.
  - destruct (b_w s) as [c|] eqn:W; [|discriminate E]. injection E as <-. unfold last_node.
    wi mode s I I2 I3.
    + rewrite I1. unfold freed. lia.
    + apply WOK. cbn [with_w b_w b_wpc b_h b_msgs]. destruct (c <? _)%nat eqn:L; lia.
    + intros i r p _ _ _. rewrite W, PC, !LIM. destruct (c <? _)%nat; cbn [Nat.ltb Nat.leb]; lia.
  - destruct (b_w s) as [c|] eqn:W; [|discriminate E]. destruct (nth_error (b_rd s) k) as [r0|] eqn:N.
    + destruct (r_reg r0 && _) eqn:Q; injection E as <-; wi mode s I I2 I3;
        try (rewrite I1; reflexivity); try (apply WOK; cbn [with_w b_w b_wpc b_h b_msgs]; lia).
      * intros i r p _ _ _. rewrite W, PC, !LIM. destruct (i <? k)%nat; lia.
      * intros i r p X CL CU. rewrite W, PC, !LIM. destruct (i <? k)%nat eqn:L1; [destruct (i <? S k)%nat; lia|].
        destruct (i <? S k)%nat eqn:L2; [|lia]. assert (i = k) by lia. subst i. rewrite N in X. injection X as ->.
        pose proof (I5 k r N) as R. rewrite CL in R. unfold rdok in R. rewrite CU in R. destruct (r_from r) as [f|] eqn:FR; [|contradiction].
        destruct (C r (nth_error_In _ _ N) CL f FR) as (G & _). rewrite G, CU in Q. cbn [andb] in Q. intros. lia.
    + injection E as <-. wi mode s I I2 I3; [rewrite I1; reflexivity|apply WOK; cbn [with_w b_w b_wpc b_h b_msgs]; lia|].
      intros i r p X _ _. rewrite W, PC, !LIM. apply nth_error_None in N. assert (i < length (b_rd s))%nat by (apply nth_error_Some; congruence).
      replace (i <? k)%nat with true by lia. lia.
  - destruct (b_w s) as [c|] eqn:W; [|discriminate E].
    assert (POP : forall sz bad, bad = false -> pop s sz bad = Some s' -> inv mode s').
    { intros sz bad -> P. unfold pop, last_node in P. destruct (b_h s <? length (b_msgs s))%nat eqn:L; [|discriminate P]. injection P as <-.
      wi mode s I I2 I3; [rewrite I1; reflexivity|lia| | |].
      - intros x [<-|X]; [lia|]. specialize (I3 x X). lia.
      - apply WOK. cbn [b_w b_wpc b_h b_msgs]. try rewrite W. split; [reflexivity|lia].
      - intros i r p _ _ _. try rewrite W; rewrite PC, !LIM. lia. }
    assert (F : freed s c = false) by (unfold freed; lia).
    destruct mode; [discriminate MD|exact (POP _ _ eq_refl E)|].
    set (sz := if is_null s c then b_size s else b_size s + size (msg s c)) in *.
    destruct (mx <? sz); [exact (POP _ _ F E)|]. injection E as <-.
    wi KeepSize s I I2 I3; [rewrite I1, F; reflexivity|apply WOK; cbn [b_w b_wpc b_h b_msgs]; try rewrite W; lia|].
    intros i r p _ _ _. try rewrite W; rewrite PC, !LIM. lia.
  - destruct (b_w s) as [c|] eqn:W; [|discriminate E]. injection E as <-.
    wi mode s I I2 I3; [exact I1|lia|apply WOK; cbn [b_w b_wpc b_h b_msgs]; try rewrite W; lia|].
    intros i r p _ _ _. try rewrite W; rewrite PC, !LIM. lia.
  - destruct (b_w s) as [c|] eqn:W; [|discriminate E]. injection E as <-.
    wi mode s I I2 I3; [rewrite I1; reflexivity|apply WOK; cbn [with_w b_w b_wpc b_h b_msgs]; lia|].
    intros i r p _ _ _. try rewrite W; rewrite PC, !LIM. lia.
Qed.

Lemma step_keeps : forall mode mx size s a s', inv mode s -> careful mode s -> careful mode s' -> a <> BClear ->
  bstep mode mx size s a = Some s' -> inv mode s'.
Proof.
  intros mode mx size s a s' I C C' NC E. pose proof I as (I1 & I2 & I3 & I4 & I5). destruct a as [m|hd|i|i| |i|]; cbn [bstep] in E.
  - injection E as <-. unfold inv. cbn [b_msgs b_null b_h b_rel b_w b_wpc b_size b_rd b_bad]. rewrite app_length. cbn [length].
    split; [exact I1|]. split; [lia|]. split; [exact I3|]. split.
    + unfold wok in *. cbn [b_msgs b_h b_w b_wpc]. rewrite app_length. cbn [length].
      destruct mode; [exact I4| |]; (destruct (b_w s); [|exact I4]; destruct (b_wpc s); lia).
    + intros i r X. specialize (I5 i r X). destruct (r_closed r).
      * unfold kept in *. destruct (r_from r) as [f|]; [|exact I5]. destruct I5 as [K1 K2]. rewrite app_length. split; [lia|]. apply follows_push; assumption.
      * unfold rdok in *. destruct (r_cur r) as [p|], (r_from r) as [f|]; try exact I5. destruct I5 as (K1 & K2 & K3). rewrite app_length.
        split; [lia|]. split; [exact K2|].
        destruct (r_pc r) as [|x|x m0|x].
        -- rewrite seg_push by lia. exact K3.
        -- destruct K3 as (K3 & K4 & K5). rewrite seg_push by lia. split; [exact K3|]. split; [lia|exact K5].
        -- destruct K3 as (K3 & K4 & K5 & K6). rewrite seg_push by lia. split; [exact K3|]. split; [lia|]. split; [|exact K6]. rewrite app_nth1 by lia. exact K5.
        -- destruct K3 as (K3 & K4 & K5). rewrite seg_push by lia. split; [exact K3|]. split; [lia|exact K5].
  - injection E as <-. unfold inv. cbn [b_msgs b_null b_h b_rel b_w b_wpc b_size b_rd b_bad]. split; [exact I1|]. split; [exact I2|]. split; [exact I3|].
    split; [exact I4|]. intros i r X. destruct (Nat.lt_ge_cases i (length (b_rd s))) as [L|L].
    + rewrite nth_error_app1 in X by exact L. apply I5, X.
    + rewrite nth_error_app2 in X by exact L. destruct (i - length (b_rd s))%nat as [|k]; [|destruct k; discriminate X].
      injection X as <-. cbn [r_closed]. unfold rdok. cbn. split; reflexivity.
  - destruct (nth_error (b_rd s) i) as [r|] eqn:N; [|discriminate E]. destruct (in_check (b_wpc s) || r_reg r || r_closed r) eqn:Q; [discriminate E|].
    injection E as <-. apply (with_rd_inv mode s i r); auto. cbn [r_closed]. specialize (I5 i r N).
    replace (r_closed r) with false in I5 by (symmetry; destruct (in_check (b_wpc s)), (r_reg r), (r_closed r); discriminate Q || reflexivity).
    exact I5.
  - destruct (nth_error (b_rd s) i) as [r|] eqn:N; [|discriminate E]. destruct (r_closed r) eqn:CL; [discriminate E|]. injection E as <-.
    apply read_keeps; assumption.
  - exact (watch_keeps _ _ _ _ _ I C E).
  - destruct (nth_error (b_rd s) i) as [r|] eqn:N; [|discriminate E]. destruct (in_check (b_wpc s)) eqn:Q; [discriminate E|].
    destruct (r_reg r) eqn:RG; [|discriminate E]. destruct (r_pc r) eqn:PC; try discriminate E. injection E as <-.
    apply (with_rd_inv mode s i r); auto. cbn [r_closed]. specialize (I5 i r N). destruct (r_closed r); [exact I5|]. exact (rdok_kept _ _ _ I5).
  - contradiction.
Qed.

Lemma start_inv : forall mode, inv mode bstart.
Proof.
  intros mode. unfold inv, bstart, wok. cbn. split; [reflexivity|]. split; [lia|]. split; [intros k []|]. split; [destruct mode; auto|].
  intros i r X. destruct i; discriminate X.
Qed.
