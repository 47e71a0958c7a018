(** C35: the list with many readers. *)
From Verif Require Import Base S_bcast M_bcast L_bcast.
From Coq Require Import ZifyBool ZifyNat.

Lemma states_last : forall mode mx size l s ss, bstates mode mx size s l = Some ss -> exists pre, ss = s :: pre.
Proof.
  intros mode mx size l s ss H. destruct l as [|a l]; cbn [bstates] in H; [injection H as <-; exists []; reflexivity|].
  destruct (bstep _ _ _ _ _) as [s'|]; [|discriminate H]. destruct (bstates _ _ _ s' l) as [r|]; [|discriminate H]. injection H as <-. exists r. reflexivity.
Qed.
Lemma states_inv : forall mode mx size l s ss, inv mode s -> bstates mode mx size s l = Some ss -> ~ In BClear l -> Forall (careful mode) ss ->
  Forall (inv mode) ss.
Proof.
  induction l as [|a l IH]; intros s ss I H NC C; cbn [bstates] in H; [injection H as <-; constructor; [exact I|constructor]|].
  destruct (bstep _ _ _ _ _) as [s'|] eqn:E; [|discriminate H]. destruct (bstates _ _ _ s' l) as [r|] eqn:R; [|discriminate H]. injection H as <-.
  inversion C as [|x y C1 C2]; subst. destruct (states_last _ _ _ _ _ _ R) as [pre P].
  constructor; [exact I|]. apply (IH s'); [|exact R|intros K; apply NC; right; exact K|exact C2].
  apply (step_keeps mode mx size s a s'); auto; [|intros ->; apply NC; left; reflexivity]. rewrite P in C2. inversion C2; assumption.
Qed.
Lemma inv_ok : forall mode s, inv mode s -> broadcast_ok (bsee s).
Proof.
  intros mode s (I1 & I2 & I3 & I4 & I5). unfold broadcast_ok, bsee. cbn [bv_bad bv_readers bv_msgs]. split; [exact I1|].
  intros v H. apply in_map_iff in H. destruct H as (r & <- & H). cbn [vr_from vr_out]. apply In_nth_error in H. destruct H as [i H].
  specialize (I5 i r H). destruct (r_closed r); [exact I5|]. apply rdok_kept in I5. exact I5.
Qed.

(** Any number of readers come and go, messages are pushed and the watcher frees old ones, in any
    order of steps.  If every reader is registered before it takes its place, and either everything
    is kept or the readers start from the tail of a list that has been used, then nothing freed is
    touched and every reader has exactly the messages pushed from its place on, in order. *)
Theorem C35_partial : forall mode maxsize size l ss,
  bstates mode maxsize size bstart l = Some ss -> ~ In BClear l -> Forall (careful mode) ss ->
  Forall (fun s => broadcast_ok (bsee s)) ss.
Proof.
  intros mode mx size l ss H NC C. pose proof (states_inv _ _ _ _ _ _ (start_inv mode) H NC C) as I.
  apply (Forall_impl _ (inv_ok mode) I).
Qed.
Print Assumptions C35_partial.

(** ** the reader catches up *)
Definition to_go (n p : nat) (pc : rpc) : nat := 4 * (n - p) - match pc with RIdle => 0 | RGot _ => 1 | RUse _ _ => 2 | RSet _ => 3 end.
Lemma careful_read : forall mode s i r f, careful mode s -> nth_error (b_rd s) i = Some r -> r_closed r = false -> r_from r = Some f -> r_cur r <> None ->
  careful mode (read_step s i r) /\ exists r', nth_error (b_rd (read_step s i r)) i = Some r' /\ r_closed r' = false /\ r_from r' = Some f.
Proof.
  intros mode s i r f C N CL FR CU.
  assert (G : forall r' bad, r_closed r' = false -> r_from r' = Some f -> r_reg r' = r_reg r -> r_head r' = r_head r ->
    careful mode (with_rd s i r' bad) /\ exists r2, nth_error (b_rd (with_rd s i r' bad)) i = Some r2 /\ r_closed r2 = false /\ r_from r2 = Some f).
  { intros r' bad E1 E2 E3 E4. split.
    - intros x X XC g G. apply In_nth_error in X. destruct X as [j X]. unfold with_rd in X. cbn [b_rd] in X. rewrite nth_set in X.
      destruct (Nat.eqb j i) eqn:E; [|apply (C x (nth_error_In _ _ X) XC g G)]. rewrite N in X. injection X as <-.
      rewrite E3, E4. rewrite E2 in G. injection G as <-. apply (C r (nth_error_In _ _ N) CL f FR).
    - exists r'. unfold with_rd. cbn [b_rd]. rewrite nth_set, Nat.eqb_refl, N. auto. }
  unfold read_step. destruct (r_pc r) as [|x|x m|x]; [destruct (r_cur r) as [p|]; [destruct (p <? _)%nat|contradiction]|..]; apply G; auto.
Qed.
Lemma catch_up : forall mode mx size i f d s r p, inv mode s -> careful mode s -> nth_error (b_rd s) i = Some r -> r_closed r = false ->
  r_from r = Some f -> r_cur r = Some p -> to_go (length (b_msgs s)) p (r_pc r) = d ->
  exists k ss r', bstates mode mx size s (repeat (BRead i) k) = Some ss /\ nth_error (b_rd (last ss s)) i = Some r' /\
    r_out r' = skipn f (b_msgs s).
Proof.
  intros mode mx size i f d. induction d as [d IH] using lt_wf_ind. intros s r p I C N CL FR CU D.
  destruct (careful_read mode s i r f C N CL FR) as [C' (r' & N' & CL' & FR')]; [congruence|].
  pose proof (read_keeps mode s i r I C' N CL) as I'.
  assert (STEP : bstep mode mx size s (BRead i) = Some (read_step s i r)) by (cbn [bstep]; rewrite N, CL; reflexivity).
  assert (M : b_msgs (read_step s i r) = b_msgs s).
  { unfold read_step. destruct (r_pc r); [destruct (r_cur r); [destruct (_ <? _)%nat|]|..]; reflexivity. }
  pose proof I as (_ & _ & _ & _ & I5). specialize (I5 i r N). rewrite CL in I5. unfold rdok in I5. rewrite CU, FR in I5. destruct I5 as (R1 & R2 & R3).
  assert (GO : forall p2, r_cur r' = Some p2 -> (to_go (length (b_msgs s)) p2 (r_pc r') < d)%nat ->
    exists k ss r2, bstates mode mx size s (repeat (BRead i) k) = Some ss /\ nth_error (b_rd (last ss s)) i = Some r2 /\ r_out r2 = skipn f (b_msgs s)).
  { intros p2 CU2 L. rewrite <- M in L. destruct (IH _ L (read_step s i r) r' p2 I' C' N' CL' FR' CU2 eq_refl) as (k & ss & r2 & S1 & S2 & S3).
    exists (S k), (s :: ss), r2. cbn [repeat bstates]. rewrite STEP, S1. split; [reflexivity|]. split; [|rewrite M in S3; exact S3].
    destruct (states_last _ _ _ _ _ _ S1) as [pre ->]. change (last (s :: read_step s i r :: pre) s) with (last (read_step s i r :: pre) s).
    assert (LD : forall (l : list bst) x a b, last (x :: l) a = last (x :: l) b) by (induction l as [|y l IHl]; intros; [reflexivity|apply (IHl y)]).
    rewrite (LD pre _ s (read_step s i r)). exact S2. }
  unfold read_step in N'. unfold to_go in D, GO. destruct (r_pc r) as [|x|x m|x] eqn:PC.
  - rewrite CU in N'. destruct (p <? last_node s)%nat eqn:L.
    + unfold with_rd in N'. cbn [b_rd] in N'. rewrite nth_set, Nat.eqb_refl, N in N'. injection N' as <-.
      apply (GO p CU). cbn [at_pc r_pc]. unfold last_node in L. lia.
    + exists 0%nat, [s], r. split; [reflexivity|]. split; [exact N|]. rewrite R3. unfold seg, last_node in *.
      replace (p - f)%nat with (length (skipn f (b_msgs s))) by (rewrite skipn_length; lia). apply firstn_all.
  - destruct R3 as (R3 & R4 & R5). unfold with_rd in N'. cbn [b_rd] in N'. rewrite nth_set, Nat.eqb_refl, N in N'. injection N' as <-.
    apply (GO p CU). cbn [at_pc r_pc]. destruct (is_null s x); lia.
  - destruct R3 as (R3 & R4 & R5). unfold with_rd in N'. cbn [b_rd] in N'. rewrite nth_set, Nat.eqb_refl, N in N'. injection N' as <-.
    apply (GO p CU). cbn [r_pc]. lia.
  - destruct R3 as (R3 & R4 & R5). unfold with_rd in N'. cbn [b_rd] in N'. rewrite nth_set, Nat.eqb_refl, N in N'. injection N' as <-.
    apply (GO x eq_refl). cbn [r_pc]. lia.
Qed.

(** In the same circumstances an open reader that has taken its place, left to run, has received
    after finitely many steps every message pushed from its place on. *)
Theorem C35_delivery_partial : forall mode maxsize size l ss s i r f,
  bstates mode maxsize size bstart l = Some (ss ++ [s]) -> ~ In BClear l -> Forall (careful mode) (ss ++ [s]) ->
  nth_error (b_rd s) i = Some r -> r_closed r = false -> r_from r = Some f ->
  exists k ss' r', bstates mode maxsize size s (repeat (BRead i) k) = Some ss' /\ nth_error (b_rd (last ss' s)) i = Some r' /\
    r_out r' = skipn f (b_msgs s).
Proof.
  intros mode mx size l ss s i r f H NC C N CL FR. pose proof (states_inv _ _ _ _ _ _ (start_inv mode) H NC C) as I.
  apply Forall_app in I. destruct I as [_ I]. inversion I as [|? ? I0 _]; subst.
  apply Forall_app in C. destruct C as [_ C]. inversion C as [|? ? C0 _]; subst.
  pose proof I0 as (_ & _ & _ & _ & I5). specialize (I5 i r N). rewrite CL in I5. unfold rdok in I5. rewrite FR in I5.
  destruct (r_cur r) as [p|] eqn:CU; [|contradiction]. apply (catch_up mode mx size i f _ s r p I0 C0 N CL FR CU eq_refl).
Qed.
Print Assumptions C35_delivery_partial.

(** checks by computation *)
Definition carefulb (mode : save) (s : bst) : bool :=
  forallb (fun r => r_closed r || match r_from r with None => true | Some f =>
    r_reg r && match mode with KeepAll => true | _ => negb (r_head r) && (1 <=? f)%nat end end) (b_rd s).
Lemma carefulb_ok : forall mode s, carefulb mode s = true -> careful mode s.
Proof.
  intros mode s H r R CL f F. unfold carefulb in H. rewrite forallb_forall in H. specialize (H r R). rewrite CL, F in H. cbn [orb] in H.
  apply andb_prop in H. destruct H as [H1 H2]. split; [exact H1|]. destruct mode; [left; reflexivity| |]; right; apply andb_prop in H2; destruct H2 as [H2 H3];
    (split; [destruct (r_head r); [discriminate H2|reflexivity]|lia]).
Qed.
Lemma carefulb_all : forall mode ss, forallb (carefulb mode) ss = true -> Forall (careful mode) ss.
Proof. intros mode ss H. rewrite forallb_forall in H. apply Forall_forall. intros s S. apply carefulb_ok, H, S. Qed.

Definition watch (n : nat) := repeat BWatch n.
Definition reads (i n : nat) := repeat (BRead i) n.
(** two tail readers on a used list; the watcher frees what both have passed *)
Definition good_run : list bact :=
  BPush 1 :: BOpen false :: BReg 0 :: BOpen false :: BReg 1 :: reads 0 1 ++ reads 1 1 ++
  BPush 2 :: BPush 3 :: BPush 4 :: reads 0 8 ++ watch 6 ++ reads 1 5 ++ watch 15 ++ reads 1 20 ++ watch 30 ++ reads 0 10 ++ [BClose 0; BPush 5] ++ watch 40 ++ reads 1 5.
Example C35_partial_ok :
  exists ss, bstates KeepNone 0 (fun _ => 1) bstart good_run = Some ss /\ ~ In BClear good_run /\ Forall (careful KeepNone) ss /\
    let s := last ss bstart in b_h s = 3%nat /\ map r_out (b_rd s) = [[2; 3; 4]; [2; 3; 4; 5]].
Proof.
  destruct (bstates KeepNone 0 (fun _ => 1) bstart good_run) as [ss|] eqn:E; [|vm_compute in E; discriminate E]. exists ss. split; [reflexivity|]. split.
  - intros H. vm_compute in H. repeat (destruct H as [H|H]; [discriminate H|]). destruct H.
  - vm_compute in E. injection E as <-. split; [apply carefulb_all; vm_compute; reflexivity|vm_compute; auto].
Qed.

Lemma bad_not_ok : forall ss, existsb b_bad ss = true -> ~ Forall (fun s => broadcast_ok (bsee s)) ss.
Proof.
  intros ss H F. apply existsb_exists in H. destruct H as (s & S & B). rewrite Forall_forall in F. destruct (F s S) as [G _].
  cbn [bsee bv_bad] in G. congruence.
Qed.
(** every reader with a place in the list is registered *)
Definition registered (s : bst) : Prop := forall r f, In r (b_rd s) -> r_closed r = false -> r_from r = Some f -> r_reg r = true.
Definition registeredb (s : bst) : bool := forallb (fun r => r_closed r || match r_from r with None => true | _ => r_reg r end) (b_rd s).
Lemma registeredb_all : forall ss, forallb registeredb ss = true -> Forall registered ss.
Proof.
  intros ss H. rewrite forallb_forall in H. apply Forall_forall. intros s S r f R CL F. specialize (H s S). unfold registeredb in H.
  rewrite forallb_forall in H. specialize (H r R). rewrite CL, F in H. exact H.
Qed.

(** A tail reader that takes its place before the first message stands on the first sentinel, where
    the watcher does not look: with two messages in the list the watcher frees the sentinel under it. *)
Theorem C35_first_message_refuted : exists l ss,
  bstates KeepNone 0 (fun _ => 1) bstart l = Some ss /\ ~ In BClear l /\ ~ In (BOpen true) l /\ Forall registered ss /\
  ~ Forall (fun s => broadcast_ok (bsee s)) ss.
Proof.
  set (l := BOpen false :: BReg 0 :: reads 0 1 ++ BPush 1 :: BPush 2 :: watch 5 ++ reads 0 1).
  destruct (bstates KeepNone 0 (fun _ => 1) bstart l) as [ss|] eqn:E; [|vm_compute in E; discriminate E]. exists l, ss. split; [exact E|].
  split; [intros H; vm_compute in H; repeat (destruct H as [H|H]; [discriminate H|]); destruct H|].
  split; [intros H; vm_compute in H; repeat (destruct H as [H|H]; [discriminate H|]); destruct H|].
  vm_compute in E. injection E as <-. split; [apply registeredb_all; vm_compute; reflexivity|apply bad_not_ok; vm_compute; reflexivity].
Qed.
Print Assumptions C35_first_message_refuted.

(** The configuration of the server (sisdb_server.c:92-95): a size limit and one reader from the head,
    opened before any message.  While the reader is in its callback with the first message, the
    watcher passes over it (the reader's cursor still stands on the sentinel) and, when the limit is
    exceeded, releases the message in use. *)
Theorem C35_head_refuted : exists l ss,
  bstates KeepSize (16 * 1024 * 1024) (fun _ => 9000000) bstart l = Some ss /\ ~ In BClear l /\ Forall registered ss /\
  ~ Forall (fun s => broadcast_ok (bsee s)) ss.
Proof.
  set (l := BOpen true :: BReg 0 :: reads 0 1 ++ BPush 1 :: reads 0 2 ++ BPush 2 :: BPush 3 :: watch 11 ++ reads 0 1).
  destruct (bstates KeepSize (16 * 1024 * 1024) (fun _ => 9000000) bstart l) as [ss|] eqn:E; [|vm_compute in E; discriminate E]. exists l, ss. split; [exact E|].
  split; [intros H; vm_compute in H; repeat (destruct H as [H|H]; [discriminate H|]); destruct H|].
  vm_compute in E. injection E as <-. split; [apply registeredb_all; vm_compute; reflexivity|apply bad_not_ok; vm_compute; reflexivity].
Qed.
Print Assumptions C35_head_refuted.

(** sis_lock_list_clear frees the nodes under the readers' cursors (used with readers attached in
    workers/snodb/snodb.c:371). *)
Theorem C35_clear_refuted : exists l ss,
  bstates KeepAll 0 (fun _ => 1) bstart l = Some ss /\ Forall (careful KeepAll) ss /\ ~ Forall (fun s => broadcast_ok (bsee s)) ss.
Proof.
  set (l := BOpen true :: BReg 0 :: reads 0 1 ++ BPush 1 :: BClear :: reads 0 1).
  destruct (bstates KeepAll 0 (fun _ => 1) bstart l) as [ss|] eqn:E; [|vm_compute in E; discriminate E]. exists l, ss. split; [exact E|].
  vm_compute in E. injection E as <-. split; [apply carefulb_all; vm_compute; reflexivity|apply bad_not_ok; vm_compute; reflexivity].
Qed.
Print Assumptions C35_clear_refuted.

(** A reader's thread runs before sis_lock_reader_open puts it among the users: the watcher does not
    see its cursor and frees the node. *)
Theorem C35_register_refuted : exists l ss,
  bstates KeepNone 0 (fun _ => 1) bstart l = Some ss /\ ~ In BClear l /\
  Forall (fun s => forall r f, In r (b_rd s) -> r_from r = Some f -> r_head r = false /\ (1 <= f)%nat) ss /\
  ~ Forall (fun s => broadcast_ok (bsee s)) ss.
Proof.
  set (l := BPush 1 :: BOpen false :: reads 0 1 ++ BPush 2 :: BPush 3 :: watch 11 ++ reads 0 1).
  destruct (bstates KeepNone 0 (fun _ => 1) bstart l) as [ss|] eqn:E; [|vm_compute in E; discriminate E]. exists l, ss. split; [exact E|].
  split; [intros H; vm_compute in H; repeat (destruct H as [H|H]; [discriminate H|]); destruct H|].
  vm_compute in E. injection E as <-. split; [|apply bad_not_ok; vm_compute; reflexivity].
  assert (K : forall ss, forallb (fun s => forallb (fun r => match r_from r with None => true | Some f => negb (r_head r) && (1 <=? f)%nat end) (b_rd s)) ss = true ->
    Forall (fun s => forall r f, In r (b_rd s) -> r_from r = Some f -> r_head r = false /\ (1 <= f)%nat) ss).
  { intros ss H. rewrite forallb_forall in H. apply Forall_forall. intros s S r f R F. specialize (H s S). rewrite forallb_forall in H.
    specialize (H r R). rewrite F in H. apply andb_prop in H. destruct H as [H1 H2]. split; [destruct (r_head r); [discriminate H1|reflexivity]|lia]. }
  apply K. vm_compute. reflexivity.
Qed.
Print Assumptions C35_register_refuted.

(** The thread of a tail reader takes its place when it first runs: a message pushed after
    sis_lock_reader_open returned is never received. *)
Theorem C35_late_start_refuted : exists l ss,
  bstates KeepAll 0 (fun _ => 1) bstart l = Some ss /\ ~ In BClear l /\ Forall (careful KeepAll) ss /\ ~ Forall (fun s => on_time (bsee s)) ss.
Proof.
  set (l := BOpen false :: BReg 0 :: BPush 1 :: reads 0 1).
  destruct (bstates KeepAll 0 (fun _ => 1) bstart l) as [ss|] eqn:E; [|vm_compute in E; discriminate E]. exists l, ss. split; [exact E|].
  split; [intros H; vm_compute in H; repeat (destruct H as [H|H]; [discriminate H|]); destruct H|].
  vm_compute in E. injection E as <-. split; [apply carefulb_all; vm_compute; reflexivity|].
  intros F. rewrite Forall_forall in F. specialize (F _ (or_intror (or_intror (or_intror (or_intror (or_introl eq_refl)))))).
  specialize (F _ 0%nat 1%nat (or_introl eq_refl) eq_refl eq_refl). lia.
Qed.
Print Assumptions C35_late_start_refuted.
