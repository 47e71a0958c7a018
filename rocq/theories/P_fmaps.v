(** C18: records written reach the disk on save; counterexamples of C17 and C18. *)
From Verif Require Import Base S_fmap M_fmap L_fmap P_fmap P_fmapw.
From Coq Require Import ZifyBool ZifyNat.

(** no erasure is waiting to be written *)
Definition no_erasure (idx : list fidx) : Prop := forall f, In f idx -> fx_moved f = true -> fx_writed f = false.
(** some block is marked for writing *)
Definition marked (idx : list fidx) : Prop := exists f, In f idx /\ fx_writed f = true /\ fx_moved f = false.

Lemma no_erasure_sub : forall a b, no_erasure (a ++ b) <-> no_erasure a /\ no_erasure b.
Proof.
  intros a b. unfold no_erasure. split.
  - intros H; split; intros f I0; apply H; apply in_or_app; auto.
  - intros [H1 H2] f I0. apply in_app_or in I0. destruct I0; auto.
Qed.
Lemma no_erasure_shift : forall r, no_erasure r -> no_erasure (map (fun g => mkfidx (fx_sign g) (fx_start g + 1) (fx_count g) (fx_moved g) (fx_writed g)) r).
Proof. intros r H f I0. apply in_map_iff in I0. destruct I0 as (g & <- & Ig). simpl. apply H; auto. Qed.

Lemma add_scan_ok : forall s idx n i r k found, add_scan s n i idx = (r, k, found) -> no_erasure idx ->
  no_erasure r /\ (found = true -> marked r).
Proof.
  induction idx as [|f idx IH]; intros n i r k found E NE; simpl in E.
  - injection E as <- _ <-. split; [exact NE|discriminate].
  - assert (NE1 : no_erasure idx) by (intros g Ig; apply NE; right; auto).
    destruct (s =? fx_sign f); [|destruct (s <? fx_sign f)].
    + injection E as <- _ <-. split.
      * intros g [<-|Ig]; simpl; [discriminate|]. apply (no_erasure_shift idx NE1 g Ig).
      * intros _. eexists; split; [left; reflexivity|]. split; reflexivity.
    + injection E as <- _ <-. split.
      * intros g [<-|[<-|Ig]]; simpl; [discriminate| |]. { apply NE; left; auto. } apply (no_erasure_shift idx NE1 g Ig).
      * intros _. eexists; split; [left; reflexivity|]. split; reflexivity.
    + destruct (add_scan s (n + fx_count f) (i + 1) idx) as [[r0 k0] f0] eqn:E1. injection E as <- _ <-.
      destruct (IH _ _ _ _ _ E1 NE1) as (H1 & H2). split.
      * intros g [<-|Ig]; [apply NE; left; auto|apply H1; auto].
      * intros F. destruct (H2 F) as (g & Ig & G). exists g. split; [right; auto|auto].
Qed.
Lemma add_idx_ok : forall idx k s idx' k', add_idx idx k s = (idx', k') -> no_erasure idx -> no_erasure idx' /\ marked idx'.
Proof.
  intros idx k s idx' k' E NE. unfold add_idx in E.
  set (start := if (k <? 0) || (k >=? Z.of_nat (length idx)) then 0 else k) in *.
  rewrite <- (firstn_skipn (Z.to_nat start) idx) in NE. apply no_erasure_sub in NE. destruct NE as (N1 & N2).
  destruct (add_scan s 0 start (skipn (Z.to_nat start) idx)) as [[r k0] found] eqn:E1.
  destruct (add_scan_ok _ _ _ _ _ _ _ E1 N2) as (H1 & H2). destruct found; injection E as <- _.
  - split; [apply no_erasure_sub; auto|]. destruct (H2 eq_refl) as (g & Ig & G). exists g. split; auto. apply in_or_app; auto.
  - split.
    + apply no_erasure_sub; split; auto. apply no_erasure_sub; split; auto. intros g [<-|[]]; discriminate.
    + eexists; split. { apply in_or_app; right. apply in_or_app; right. left; reflexivity. } split; reflexivity.
Qed.

Section P.
Context {R : Type}.
Variables (mi : R -> Z) (sign : R -> Z) (same : R -> R -> bool) (quot : Z -> Z -> Z).

Lemma insert_at_in : forall (l : list R) i x y, In y (insert_at l i x) <-> y = x \/ In y l.
Proof.
  intros l i x y. unfold insert_at. destruct (_ || _).
  - rewrite in_app_iff. simpl. intuition congruence.
  - cbv zeta. set (n := Z.to_nat (Z.max 0 i)). rewrite <- (firstn_skipn n l) at 3. rewrite !in_app_iff. simpl. intuition congruence.
Qed.
Lemma mindex_one_in : forall u (l : list R) tail x l' tail', mindex_one mi quot u l tail x = Some (l', tail') ->
  forall y, In y l' <-> y = x \/ In y l.
Proof.
  intros u l tail x l' tail' E y. unfold mindex_one in E. cbv zeta in E.
  assert (P : In y (l ++ [x]) <-> y = x \/ In y l) by (rewrite in_app_iff; simpl; intuition congruence).
  repeat match type of E with
  | (if ?b then _ else _) = _ => destruct b
  | match ?o with Some _ => _ | None => _ end = _ => destruct o; [|discriminate]
  end; injection E as <- _; try exact P; apply insert_at_in.
Qed.
Lemma mindex_loop_in : forall u batch l idx tail k l' idx',
  mindex_loop mi sign quot u l idx tail k batch = Some (l', idx') -> no_erasure idx ->
  (forall y, In y l' <-> In y batch \/ In y l) /\ no_erasure idx' /\ (batch <> [] \/ marked idx -> marked idx').
Proof.
  induction batch as [|x batch IH]; intros l idx tail k l' idx' E NE; simpl in E.
  - injection E as <- <-. split; [intros y; simpl; tauto|]. split; [auto|]. intros [H|H]; [congruence|auto].
  - destruct (mindex_one mi quot u l tail x) as [[l1 tail1]|] eqn:E1; [|discriminate].
    destruct (add_idx idx k (sign x)) as [idx1 k1] eqn:E2.
    destruct (add_idx_ok _ _ _ _ _ E2 NE) as (N1 & M1).
    destruct (IH _ _ _ _ _ _ E N1) as (H1 & H2 & H3). split; [|split; [exact H2|intros _; apply H3; right; exact M1]].
    intros y. rewrite H1. rewrite (mindex_one_in _ _ _ _ _ _ E1). simpl. split; intros H; intuition congruence.
Qed.

Lemma update_in : forall u batch u', update mi sign same quot false u batch = Some u' -> fu_recs u <> [] -> no_erasure (fu_idx u) ->
  (forall y, In y (fu_recs u') <-> In y batch \/ In y (fu_recs u)) /\ no_erasure (fu_idx u') /\
  (batch <> [] \/ marked (fu_idx u) -> marked (fu_idx u')).
Proof.
  intros u batch u' E N NE. unfold update in E.
  assert (C : count (fu_recs u) <? 1 = false). { destruct (fu_recs u); [congruence|]. unfold count; simpl length; lia. }
  rewrite C in E. unfold mindex_update in E.
  destruct (mindex_loop mi sign quot u _ _ _ _ batch) as [[l' idx']|] eqn:E1; [|discriminate].
  injection E as <-. destruct (mindex_loop_in _ _ _ _ _ _ _ _ E1 NE) as (H1 & H2 & H3).
  destruct (0 <? count batch); simpl; auto.
Qed.

Lemma save_ok : forall u : @funit R, fu_recs u <> [] -> no_erasure (fu_idx u) ->
  (forall s, ~ In (Erased s) (fst (save u))) /\ no_erasure (fu_idx (snd (save u))) /\ fu_recs (snd (save u)) = fu_recs u /\
  (marked (fu_idx u) -> In (Stored (fu_recs u)) (fst (save u))).
Proof.
  intros u N NE. simpl. repeat split.
  - intros s I0. unfold save_calls in I0. apply in_flat_map in I0. destruct I0 as (f & If & Ic).
    destruct (fx_writed f) eqn:W; [|destruct Ic]. destruct (fx_moved f) eqn:M.
    + specialize (NE f If M). congruence.
    + destruct (0 <? count (fu_recs u)); [destruct Ic as [Ic|[]]; discriminate|destruct Ic].
  - intros f I0. apply in_map_iff in I0. destruct I0 as (g & <- & Ig).
    destruct (fx_writed g && negb (fx_moved g)) eqn:E; simpl; [auto|]. apply NE; auto.
  - intros (f & If & W & M). unfold save_calls. apply in_flat_map. exists f. split; auto. rewrite W, M.
    assert (C : 0 <? count (fu_recs u) = true). { destruct (fu_recs u); [congruence|]. unfold count; simpl length; lia. }
    rewrite C. left; reflexivity.
Qed.

(** the invariant of a history: what was written is in memory, and stored or about to be *)
Lemma frun_ok : forall ops u calls u', frun mi sign same quot false u ops = Some (calls, u') ->
  fu_recs u <> [] -> no_erasure (fu_idx u) ->
  (forall s, ~ In (Erased s) calls) /\ fu_recs u' <> [] /\ no_erasure (fu_idx u') /\
  (forall x, In x (fu_recs u) -> In x (fu_recs u')) /\
  (forall x, (In x (fu_recs u) /\ marked (fu_idx u)) \/ (exists b, In (Batch b) ops /\ In x b) ->
     In x (fu_recs u') /\ (marked (fu_idx u') \/ exists l, In (Stored l) calls /\ In x l)).
Proof.
  induction ops as [|o ops IH]; intros u calls u' E N NE; cbn [frun] in E.
  - injection E as <- <-. repeat split; auto.
    + destruct H as [[H _]|(b & [] & _)]; auto.
    + destruct H as [[_ H]|(b & [] & _)]; auto.
  - destruct o as [b|]; cbv beta iota in E.
    + destruct (update mi sign same quot false u b) as [u1|] eqn:E1; [|discriminate].
      destruct (update_in _ _ _ E1 N NE) as (H1 & H2 & H3).
      assert (N1 : fu_recs u1 <> []).
      { destruct (fu_recs u) as [|y l]; [congruence|]. intros X. specialize (H1 y). rewrite X in H1. destruct H1 as [_ H1]. apply H1. right; left; auto. }
      destruct (IH _ _ _ E N1 H2) as (K1 & K2 & K3 & K4 & K5). repeat split; auto.
      * intros x Ix. apply K4. apply H1; auto.
      * destruct H as [[Ix M]|(b' & [Eb|Ib] & Ix)].
        -- apply K4, H1; auto.
        -- injection Eb as ->. apply K4, H1; auto.
        -- apply K5. right. exists b'; auto.
      * destruct H as [[Ix M]|(b' & [Eb|Ib] & Ix)].
        -- apply K5. left. split; [apply H1; auto|auto].
        -- injection Eb as ->. apply K5. left. split; [apply H1; auto|]. apply H3. left. intros ->. destruct Ix.
        -- apply K5. right. exists b'; auto.
    + destruct (save_ok u N NE) as (S1 & S2 & S3 & S4).
      destruct (save u) as [c u1] eqn:E1. simpl in S1, S2, S3, S4.
      destruct (frun mi sign same quot false u1 ops) as [[c2 u2]|] eqn:E2; [|discriminate]. injection E as <- <-.
      assert (N1 : fu_recs u1 <> []) by congruence.
      destruct (IH _ _ _ E2 N1 S2) as (K1 & K2 & K3 & K4 & K5). repeat split; auto.
      * intros s I0. apply in_app_or in I0. destruct I0; [apply (S1 s)|apply (K1 s)]; auto.
      * intros x Ix. apply K4. congruence.
      * destruct H as [[Ix M]|(b' & [Eb|Ib] & Ix)]; [apply K4; congruence|discriminate Eb|]. apply K5. right. exists b'; auto.
      * destruct H as [[Ix M]|(b' & [Eb|Ib] & Ix)]; [|discriminate Eb|].
        -- right. exists (fu_recs u). split; [apply in_or_app; left; auto|auto].
        -- destruct (K5 x) as (_ & [Y|(l & L1 & L2)]). { right. exists b'; auto. } { left; auto. }
           right. exists l. split; [apply in_or_app; auto|auto].
Qed.

(** the last save of a history leaves no marked block *)
Lemma save_unmarked : forall u : @funit R, ~ marked (fu_idx (snd (save u))).
Proof.
  intros u (f & If & W & M). simpl in If. apply in_map_iff in If. destruct If as (g & <- & Ig).
  destruct (fx_writed g && negb (fx_moved g)) eqn:E; simpl in *; try discriminate. rewrite W, M in E. discriminate.
Qed.
Lemma frun_app : forall ops1 ops2 u, frun mi sign same quot false u (ops1 ++ ops2) =
  match frun mi sign same quot false u ops1 with
  | Some (c, u1) => match frun mi sign same quot false u1 ops2 with Some (c2, u2) => Some (c ++ c2, u2) | None => None end
  | None => None end.
Proof.
  induction ops1 as [|o ops1 IH]; intros ops2 u; simpl.
  - destruct (frun mi sign same quot false u ops2) as [[c2 u2]|]; reflexivity.
  - destruct o as [b|].
    + destruct (update mi sign same quot false u b); [apply IH|reflexivity].
    + rewrite IH. destruct (frun mi sign same quot false _ ops1) as [[c1 u1]|]; [|reflexivity].
      destruct (frun mi sign same quot false u1 ops2) as [[c2 u2]|]; [|reflexivity]. rewrite app_assoc. reflexivity.
Qed.

(** C18 in part: every record of every batch of a history that ends with a save is on disk, if the
    series was not empty before the first batch and no erasure was waiting (missing: the first batch
    of an empty series, unique fields, deletions) *)
Theorem C18_partial : forall (u : funit) ops calls u',
  fu_recs u <> [] -> no_erasure (fu_idx u) ->
  frun mi sign same quot false u (ops ++ [Save]) = Some (calls, u') ->
  forall b x, In (Batch b) ops -> In x b -> kept sign calls x.
Proof.
  intros u ops calls u' N NE E b x Ib Ix.
  destruct (frun_ok _ _ _ _ E N NE) as (H1 & _ & _ & _ & H5).
  destruct (H5 x) as (_ & [M|(l & L1 & L2)]). { right. exists b. split; [apply in_or_app; auto|auto]. }
  - exfalso. rewrite frun_app in E. destruct (frun mi sign same quot false u ops) as [[c1 u1]|]; [|discriminate].
    simpl in E. injection E as _ <-. apply (save_unmarked u1). exact M.
  - apply in_split in L1. destruct L1 as (c1 & c2 & ->). exists c1, l, c2. split; [reflexivity|]. split; [exact L2|].
    intros X. apply (H1 (sign x)). apply in_or_app. right; right; exact X.
Qed.
(** such a history never fails on an ordered series *)
Theorem C18_total : forall ops (u : funit), nonneg_quot quot ->
  fu_recs u <> [] -> in_order mi (fu_recs u) -> (forall x, In x (fu_recs u) -> 0 <= mi x) ->
  (forall b x, In (Batch b) ops -> In x b -> 0 <= mi x) ->
  exists calls u', frun mi sign same quot false u ops = Some (calls, u').
Proof.
  induction ops as [|o ops IH]; intros u Q N O T B; simpl. { eauto. }
  destruct o as [b|].
  - destruct (C17_update mi sign same quot Q u b N O) as (u1 & E & O1 & _ & P).
    { intros x [I0|I0]; auto. apply (B b x); simpl; auto. }
    rewrite E. apply IH; auto.
    + intros X. rewrite X in P. apply Permutation_nil in P. apply app_eq_nil in P. tauto.
    + intros x I0. apply (Permutation_in x P) in I0. apply in_app_or in I0. destruct I0; auto. apply (B b x); simpl; auto.
    + intros b' x I0. apply B. right; auto.
  - destruct (IH (snd (save u)) Q) as (c & u' & E); auto. { intros b' x I0. apply B. right; auto. }
    simpl in E. rewrite E. eauto.
Qed.
End P.

(** Counterexamples.  A record is a pair: time, payload; a block is ten units of time. *)
Definition tmi (x : Z * Z) : Z := fst x.
Definition tsign (x : Z * Z) : Z := fst x / 10.
Definition tsame (x y : Z * Z) : bool := snd x =? snd y.
Definition tupd := update tmi tsign tsame Z.div.
Lemma div_nonneg : nonneg_quot Z.div.
Proof. intros a b A B. apply Z.div_pos; lia. Qed.

(** the first batch of an empty series is not put in order *)
Theorem C17_first_batch_refuted : exists (b : list (Z * Z)) u,
  tupd false create b = Some u /\ ~ in_order tmi (fu_recs u).
Proof.
  exists [(5, 1); (3, 2)]. eexists. split; [vm_compute; reflexivity|].
  intros H. apply (in_order_pair tmi _ [] [] [] (5, 1) (3, 2)) in H; [vm_compute in H; congruence|reflexivity].
Qed.
(** records of one time do not keep the order in which they came *)
Theorem C17_tie_refuted : exists (u u' : @funit (Z * Z)) x y,
  In y (fu_recs u) /\ tmi x = tmi y /\ tupd false u [x] = Some u' /\ exists a b, fu_recs u' = a ++ x :: y :: b.
Proof.
  exists (mkfunit [(1, 0); (2, 1); (3, 0)] [] 1 3 0). eexists. exists (2, 2), (2, 1).
  split; [right; left; reflexivity|]. split; [reflexivity|]. split; [vm_compute; reflexivity|]. exists [(1, 0)], [(3, 0)]. reflexivity.
Qed.
(** a record replaces one of a later time that has the same unique fields *)
Theorem C17_unique_refuted : exists (u u' : @funit (Z * Z)) x y,
  In y (fu_recs u) /\ tmi x < tmi y /\ tupd true u [x] = Some u' /\ ~ In y (fu_recs u') /\ length (fu_recs u') = length (fu_recs u).
Proof.
  exists (mkfunit [(10, 7); (20, 7)] [] 10 20 5). eexists. exists (15, 7), (20, 7).
  split; [right; left; reflexivity|]. split; [vm_compute; reflexivity|]. split; [vm_compute; reflexivity|].
  split; [|reflexivity]. simpl. intros [H|[H|[]]]; discriminate.
Qed.
(** the first batch of an empty series is not stored by the next save *)
Theorem C18_first_batch_refuted : exists (b : list (Z * Z)) x calls u,
  In x b /\ frun tmi tsign tsame Z.div false create [Batch b; Save] = Some (calls, u) /\ ~ kept tsign calls x.
Proof.
  exists [(5, 1)], (5, 1). eexists. eexists. split; [left; reflexivity|]. split; [vm_compute; reflexivity|].
  intros (c & l & c' & E & _). destruct c; discriminate.
Qed.
(** with unique fields a change of a record in a block without an index entry is never stored *)
Theorem C18_unique_refuted : exists (b1 b2 b3 : list (Z * Z)) x calls u,
  In x b3 /\ frun tmi tsign tsame Z.div true create [Batch b1; Batch b2; Save; Batch b3; Save] = Some (calls, u) /\
  In x (fu_recs u) /\ ~ kept tsign calls x.
Proof.
  exists [(5, 1); (15, 2)], [(5, 1)], [(14, 2)], (14, 2). eexists. eexists.
  split; [left; reflexivity|]. split; [vm_compute; reflexivity|]. split; [right; left; reflexivity|].
  intros (c & l & c' & E & I0 & _).
  destruct c as [|c0 c]; simpl in E; [|injection E as _ E; destruct c; discriminate].
  injection E as <- _. simpl in I0. destruct I0 as [H|[H|[]]]; discriminate.
Qed.
(** deleting one record makes the save erase the whole block and store nothing *)
Theorem C18_delete_refuted : exists (b1 b2 : list (Z * Z)) u1 u2 u3 t x,
  tupd false create b1 = Some u1 /\ tupd false u1 b2 = Some u2 /\ del tmi Z.div true u2 t t = Some u3 /\
  In x (fu_recs u3) /\ save_calls u3 = [Erased (tsign x)].
Proof.
  exists [(5, 1); (6, 2); (7, 3)], [(8, 4)]. eexists. eexists. eexists. exists 5, (6, 2).
  split; [vm_compute; reflexivity|]. split; [vm_compute; reflexivity|]. split; [vm_compute; reflexivity|].
  split; [left; reflexivity|]. vm_compute. reflexivity.
Qed.
(** a deletion across two blocks erases the second one though records of it remain; the index was exact *)
Theorem C18_delete_blocks_refuted : exists (u u' : @funit (Z * Z)) t1 t2 x,
  fu_idx u = [mkfidx 0 0 2 false false; mkfidx 1 2 2 false false] /\
  map tsign (fu_recs u) = [0; 0; 1; 1] /\
  del tmi Z.div true u t1 t2 = Some u' /\ In x (fu_recs u') /\ ~ kept tsign (save_calls u') x.
Proof.
  exists (mkfunit [(5, 1); (6, 2); (15, 3); (16, 4)] [mkfidx 0 0 2 false false; mkfidx 1 2 2 false false] 5 16 2).
  eexists. exists 6, 15, (16, 4). split; [reflexivity|]. split; [reflexivity|]. split; [vm_compute; reflexivity|].
  split; [right; left; reflexivity|]. vm_compute save_calls.
  intros (c & l & c' & E & I0 & K). destruct c as [|c0 c]; simpl in E.
  - injection E as <- <-. apply K. left. reflexivity.
  - injection E as _ E. destruct c as [|c1 c]; [discriminate|]. injection E as _ E. destruct c; discriminate.
Qed.

(** the theorems on concrete data *)
Definition tl : list (Z * Z) := [(10, 1); (20, 2); (20, 3); (30, 4); (50, 5)].
Definition tu : @funit (Z * Z) := reidx tmi (mkfunit tl [mkfidx 1 0 1 false false; mkfidx 2 1 2 false false; mkfidx 3 3 1 false false; mkfidx 5 4 1 false false] 0 0 0).
Example C16_ok :
  in_order tmi (fu_recs tu) /\ times_ok tmi (fu_recs tu) /\
  cmp_range tmi Z.div tu 15 30 false = Some (Some (1, 3)) /\ window tmi 15 30 tl = [(20, 2); (20, 3); (30, 4)] /\
  cmp_range tmi Z.div tu 31 49 false = Some None /\ window tmi 31 49 tl = [] /\
  cmp_range tmi Z.div tu (-2) (-1) false = Some (Some (3, 2)) /\
  cmp_range tmi Z.div tu 20 0 false = Some (Some (1, 2)) /\
  cmp_range tmi Z.div tu 25 30 true = Some (Some (2, 2)) /\ window_prev tmi 25 30 tl = [(20, 3); (30, 4)] /\
  cmp_where tmi Z.div tu 20 0 = Some (Some (1, 2)) /\ cmp_where tmi Z.div tu 30 (-2) = Some (Some (1, 1)).
Proof.
  split. { unfold in_order. simpl. repeat constructor; unfold tmi; simpl; lia. }
  split. { intros x I0. simpl in I0. unfold tmi. repeat (destruct I0 as [<-|I0]; [simpl; lia|]). destruct I0. }
  vm_compute. repeat split; reflexivity.
Qed.
Example C17_ok : exists u', tupd false tu [(20, 6); (5, 7); (60, 8)] = Some u' /\
  fu_recs u' = [(5, 7); (10, 1); (20, 2); (20, 6); (20, 3); (30, 4); (50, 5); (60, 8)] /\
  fu_start u' = 5 /\ fu_stop u' = 60.
Proof. eexists. split; vm_compute; [|split; [|split]]; reflexivity. Qed.
Example C17_unique_ok : exists u', tupd true tu [(20, 3); (20, 9)] = Some u' /\
  fu_recs u' = [(10, 1); (20, 2); (20, 9); (20, 3); (30, 4); (50, 5)].
Proof. eexists. split; vm_compute; reflexivity. Qed.
Example C18_ok : exists calls u', fu_recs tu <> [] /\ no_erasure (fu_idx tu) /\
  frun tmi tsign tsame Z.div false tu [Batch [(20, 6)]; Save; Batch [(5, 7); (60, 8)]; Save] = Some (calls, u') /\
  kept tsign calls (20, 6) /\ kept tsign calls (5, 7) /\ length calls = 3%nat.
Proof.
  assert (N : fu_recs tu <> []) by discriminate.
  assert (NE : no_erasure (fu_idx tu)).
  { intros f I0. simpl in I0. repeat (destruct I0 as [<-|I0]; [discriminate|]). destruct I0. }
  destruct (frun tmi tsign tsame Z.div false tu [Batch [(20, 6)]; Save; Batch [(5, 7); (60, 8)]; Save]) as [[calls u']|] eqn:E; [|vm_compute in E; discriminate].
  exists calls, u'. split; [exact N|]. split; [exact NE|]. split; [reflexivity|].
  pose proof (C18_partial tmi tsign tsame Z.div tu [Batch [(20, 6)]; Save; Batch [(5, 7); (60, 8)]] calls u' N NE E) as K.
  split; [apply (K [(20, 6)]); simpl; auto|]. split; [apply (K [(5, 7); (60, 8)]); simpl; auto|].
  vm_compute in E. injection E as <- _. reflexivity.
Qed.

Print Assumptions C16_range.
Print Assumptions C16_prev.
Print Assumptions C16_where.
Print Assumptions C16_before.
Print Assumptions C17_update.
Print Assumptions C17_bounds.
Print Assumptions C17_record.
Print Assumptions C17_load.
Print Assumptions C17_unique.
Print Assumptions C17_first_batch_refuted.
Print Assumptions C17_tie_refuted.
Print Assumptions C17_unique_refuted.
Print Assumptions C18_partial.
Print Assumptions C18_total.
Print Assumptions C18_first_batch_refuted.
Print Assumptions C18_unique_refuted.
Print Assumptions C18_delete_refuted.
Print Assumptions C18_delete_blocks_refuted.
