(** C78: every call through the client worker gets the answer to its own request. *)
From Verif Require Import Base S_sub M_sub L_sub S_client M_client L_client.
From Coq Require Import ZifyBool ZifyNat String.
Open Scope list_scope. Open Scope Z_scope.

Ltac fields := cbn [bad sno ph num asks freed sent told net got status conn set_ph set_net set_bad] in *.
Definition cs (x : string) : list Z := S_server.bs x.
(** the calls of the theorems: those that wait do not subscribe, and no command is longer than its buffer *)
Definition fair (req : nat -> call) : Prop :=
  (forall i, is_sub (q_cmd (req i)) <> None) /\ (forall i, q_wait (req i) = true -> sub req i = false).
(** all executions in which no two calls are at ask_sno++ at the same time, with at most 16777215 requests *)
Definition reached (req : nat -> call) (auth : bool) (old : nat -> option (Z * list Z)) (s : client) : Prop := runs req auth (start old) s.
Lemma reached_inv req auth old s : fair req -> reached req auth old s -> inv req s /\ calm s.
Proof. intros [F1 F2] R. eapply (runs_inv req auth F2 F1 (start old) s); [apply inv0; assumption|apply calm0|exact R]. Qed.
Lemma reply_plain t x : plain_tag t -> reply t x = (t, x).
Proof. intros [->|[->|[->| ->]]]; reflexivity. Qed.
Lemma reply_neg t x : t < 0 -> fst (reply t x) < 0.
Proof. intros H. unfold reply. replace (t =? 103) with false by lia. replace (t =? 104) with false by lia. replace (t =? 105) with false by lia. replace (t =? 0) with false by lia. cbn [orb]. destruct (t =? -3); reflexivity. Qed.

(** * an answer reaches the call whose request it answers, unchanged, and no other *)
Theorem C78_own req auth old s : fair req -> reached req auth old s ->
  forall i a d, In (i, a, d) (told s) ->
  a_for a = i /\ exists t, a_tag a = Some t /\ (plain_tag t -> d = (t, a_info a)) /\ (t < 0 -> fst d < 0).
Proof.
  intros F R i a d I. destruct (reached_inv _ _ _ _ F R) as [V _]. destruct (iH _ _ V _ _ _ I) as (A & (t & B & C) & _).
  split; [exact A|]. exists t. split; [exact B|]. subst d. split; [apply reply_plain|apply reply_neg].
Qed.
(** * at most once, for what is no subscription *)
Theorem C78_once req auth old s : fair req -> reached req auth old s ->
  forall i, sub req i = false -> (List.length (filter (fun x => Nat.eqb (fst (fst x)) i) (told s)) <= 1)%nat.
Proof. intros F R. destruct (reached_inv _ _ _ _ F R) as [V _]. exact (iK _ _ V). Qed.
(** * no request is used after it was freed, no message after it was given up *)
Theorem C78_safe req auth old s : fair req -> reached req auth old s -> bad s = false.
Proof. intros F R. destruct (reached_inv _ _ _ _ F R) as [V _]. exact (iA _ _ V). Qed.
(** * a call that returns tells what its own answer says *)
Theorem C78_result req auth old s : fair req -> reached req auth old s ->
  forall i o, q_wait (req i) = true -> ph s i = PDone o -> o <> Refused ->
  exists a t d, In (i, a, d) (told s) /\ a_for a = i /\ a_tag a = Some t /\ (plain_tag t \/ t < 0 -> o = means t).
Proof.
  intros F R i o W PH N. destruct (reached_inv _ _ _ _ F R) as [V _]. pose proof (iJ _ _ V i W) as J. rewrite PH in J.
  assert (J' : exists a d, In (i, a, d) (told s) /\ o = means (fst d)) by (destruct o; [exact J|exact J|congruence]).
  destruct J' as (a & d & I & E). destruct (iH _ _ V _ _ _ I) as (A & (t & B & C) & _). exists a, t, d. repeat split; auto.
  intros [P|P]; subst d o; [rewrite (reply_plain t _ P); reflexivity|]. pose proof (reply_neg t (a_info a) P) as Q. unfold means. replace (fst _ <? 0) with true by lia. replace (t <? 0) with true by lia. reflexivity.
Qed.
(** * no lost wake-up: once the server answers a waiting call, it returns *)
Theorem C78_finish req auth old s : fair req -> reached req auth old s ->
  forall i n, q_wait (req i) = true -> ph s i = PWait -> got s i = None -> In (n, i) (sent s) -> status s = SWork -> net s = NIdle ->
  forall t x, exists s', happen req auth [Recv (mka n (Some t) x i); Net; Net; Go i] s = Some s' /\
    (plain_tag t \/ t < 0 -> ph s' i = PDone (means t)) /\ (plain_tag t -> got s' i = Some (t, x)) /\ ~ In (n, i) (asks s').
Proof.
  intros F R i n W PH G SE SW NI t x. destruct (reached_inv _ _ _ _ F R) as [V CA]. destruct F as [F1 F2].
  destruct (iF _ _ V _ _ SE) as (PA & NU & OFF). pose proof (iJ _ _ V i W) as J. rewrite PH, G in J. pose proof (F2 i W) as S.
  pose proof (iO _ _ V i PA (or_intror J)) as IA. rewrite NU in IA. destruct (in_find _ _ _ IA) as (j & FA).
  assert (j = i) as ->.
  { apply find_in in FA as IJ. destruct (iE _ _ V _ _ IJ) as (A & B & _). apply (iD _ _ V); [apply past_num; exact A|apply past_num; exact PA|congruence]. }
  destruct (iE _ _ V _ _ IA) as (_ & _ & FR). cbn [happen happens]. rewrite NI.
  assert (EX : existsb (fun y => (fst y =? a_name (mka n (Some t) x i)) && Nat.eqb (snd y) (a_for (mka n (Some t) x i))) (sent s) = true).
  { apply existsb_exists. exists (n, i). split; [exact SE|]. cbn. rewrite Z.eqb_refl, Nat.eqb_refl. reflexivity. }
  rewrite EX. unfold recv. rewrite SW. cbn [a_name a_tag]. rewrite FA. unfold net_go at 1. fields. cbn [a_tag a_info]. rewrite FR, W, PH. unfold net_go at 1. fields.
  rewrite FR, S. unfold go. fields. rewrite PH, upd_same. destruct (reply t x) as [t' x'] eqn:RE. eexists. split; [reflexivity|]. fields. rewrite !upd_same, NU.
  repeat split.
  - intros [P|P]; [rewrite (reply_plain t x P) in RE; injection RE as <- <-; reflexivity|]. pose proof (reply_neg t x P) as Q. rewrite RE in Q. cbn in Q. unfold means.
    replace (t' <? 0) with true by lia. replace (t <? 0) with true by lia. reflexivity.
  - intros P. rewrite (reply_plain t x P) in RE. congruence.
  - intros Q. apply in_drop in Q. cbn in Q. lia.
Qed.
(** * a subscription gets all its messages *)
Theorem C78_sub_every req auth old s : fair req -> reached req auth old s ->
  forall i n, sub req i = true -> In (n, i) (sent s) -> status s = SWork -> net s = NIdle ->
  forall t x, exists s', happen req auth [Recv (mka n (Some t) x i); Net; Net] s = Some s' /\
    told s' = (i, mka n (Some t) x i, reply t x) :: told s /\ (plain_tag t -> reply t x = (t, x)) /\
    In (n, i) (sent s') /\ status s' = SWork /\ net s' = NIdle /\ reached req auth old s'.
Proof.
  intros F R i n S SE SW NI t x. destruct (reached_inv _ _ _ _ F R) as [V CA]. destruct F as [F1 F2].
  destruct (iF _ _ V _ _ SE) as (PA & NU & OFF).
  pose proof (iO _ _ V i PA (or_introl S)) as IA. rewrite NU in IA. destruct (in_find _ _ _ IA) as (j & FA).
  assert (j = i) as ->.
  { apply find_in in FA as IJ. destruct (iE _ _ V _ _ IJ) as (A & B & _). apply (iD _ _ V); [apply past_num; exact A|apply past_num; exact PA|congruence]. }
  destruct (iE _ _ V _ _ IA) as (_ & _ & FR). set (a := mka n (Some t) x i).
  assert (QW : q_wait (req i) = false) by (destruct (q_wait (req i)) eqn:Q; [rewrite (F2 i Q) in S; discriminate|reflexivity]).
  assert (EX : existsb (fun y => (fst y =? a_name a) && Nat.eqb (snd y) (a_for a)) (sent s) = true).
  { apply existsb_exists. exists (n, i). split; [exact SE|]. cbn. rewrite Z.eqb_refl, Nat.eqb_refl. reflexivity. }
  set (s1 := set_net s (NGot a i)).
  assert (H1 : happens req auth (Recv a) s = Some s1) by (cbn [happens]; rewrite NI, EX; unfold recv; rewrite SW; cbn [a a_name a_tag]; rewrite FA; reflexivity).
  set (s2 := mkc (sno s) (ph s) (num s) (asks s) (freed s) (got s) (status s) (conn s) (NDel i) (sent s) ((i, a, reply t x) :: told s) (bad s)).
  assert (H2 : happens req auth Net s1 = Some s2) by (cbn [happens]; unfold net_go; cbn [s1 set_net net freed]; rewrite FR, QW; reflexivity).
  set (s3 := set_net s2 NIdle).
  assert (H3 : happens req auth Net s2 = Some s3) by (cbn [happens]; unfold net_go; cbn [s2 net freed]; rewrite FR, S; reflexivity).
  exists s3. cbn [happen]. rewrite H1, H2, H3. split; [reflexivity|]. split; [reflexivity|]. split; [apply reply_plain|]. split; [exact SE|]. split; [exact SW|]. split; [reflexivity|].
  eapply runs1; [eapply runs1; [eapply runs1; [exact R|exact H1|exact CA]|exact H2|exact CA]|exact H3|exact CA].
Qed.
(** * with a login, a new connection gets all subscriptions again *)
Theorem C78_again req old s : fair req -> reached req true old s -> status s = SAuth -> net s = NIdle ->
  exists s', happens req true Login s = Some s' /\ status s' = SWork /\
    forall i, sub req i = true -> ph s i = PDone Success -> In (num s i, i) (sent s').
Proof.
  intros F R SA NI. destruct (reached_inv _ _ _ _ F R) as [V _]. cbn [happens]. rewrite NI, SA. eexists. split; [reflexivity|]. split; [reflexivity|].
  intros i S PH. cbn [resend sent]. apply in_or_app. left. apply filter_In. split; [|exact S]. apply (iO _ _ V); [rewrite PH; exact Logic.I|left; exact S].
Qed.
(** * a command is a subscription when the word behind the point is *)
Theorem C78_sub service w : has DOT service = false -> has COMMA w = false -> (List.length service < 128)%nat -> (List.length w < 128)%nat ->
  exists b, is_sub (service ++ 46 :: w) = Some b /\ (b = true <-> sub_word w).
Proof.
  intros D C L1 L2. destruct (is_sub_word service w D C ltac:(lia) ltac:(lia)) as [[A B]|[A B]]; eexists; (split; [exact A|]); split; intros X; auto; try discriminate; contradiction.
Qed.

(** * examples: a call that waits, one that does not, and a subscription *)
Definition calls (i : nat) : call :=
  match i with O => mkcall true (cs "db.get"%string) | 1%nat => mkcall false (cs "db.zsub"%string) | _ => mkcall false (cs "db.set"%string) end.
Lemma calls_fair : fair calls.
Proof. split; intros [|[|i]]; try (vm_compute; congruence); intros X; vm_compute in X; discriminate. Qed.
Lemma happen_runs req auth s0 : forall es s s', runs req auth s0 s -> (forall k t, happen req auth (firstn k es) s = Some t -> calm t) ->
  happen req auth es s = Some s' -> runs req auth s0 s'.
Proof.
  induction es as [|e es IH]; intros s s' R C H; cbn in H; [injection H as <-; exact R|]. destruct (happens req auth e s) as [t|] eqn:E; [|discriminate].
  apply (IH t s'); [|intros k u U; apply (C (S k) u); cbn [firstn happen]; rewrite E; exact U|exact H].
  eapply runs1; [exact R|exact E|]. apply (C 1%nat t). cbn [firstn happen]. rewrite E. destruct es; reflexivity.
Qed.
(** a check that an execution of calls 0, 1, 2 is calm *)
Definition calmb (s : client) : bool :=
  (sno s <=? 16777215) && Nat.leb (List.length (filter (fun i => numbering (ph s i)) [0; 1; 2]%nat)) 1.
Definition rest0 (s : client) : Prop := forall i, (3 <= i)%nat -> ph s i = P0.
Definition low_event (e : event) : bool := match e with Go i => Nat.ltb i 3 | _ => true end.
Lemma calmb_calm s : rest0 s -> calmb s = true -> calm s.
Proof.
  intros R C. unfold calmb in C. apply andb_prop in C as [C1 C2]. split; [|lia].
  assert (B : forall i, numbering (ph s i) = true -> (i < 3)%nat) by (intros i N; destruct (Nat.lt_ge_cases i 3) as [L|L]; [exact L|rewrite (R i L) in N; discriminate]).
  intros i j X Y. pose proof (B i X) as BI. pose proof (B j Y) as BJ. cbn [filter] in C2.
  destruct i as [|[|[|i]]]; destruct j as [|[|[|j]]]; try reflexivity; try lia; rewrite ?X, ?Y in C2;
    repeat match type of C2 with context[if ?b then _ else _] => destruct b end; cbn in C2; discriminate.
Qed.
Lemma rest_step req auth e s s' : rest0 s -> low_event e = true -> happens req auth e s = Some s' -> rest0 s'.
Proof.
  intros R L H i I. specialize (R i I). destruct e as [j|a| | | |]; cbn [happens low_event] in *.
  - apply Nat.ltb_lt in L. unfold go in H. assert (j <> i) by lia.
    repeat match type of H with context[match ?x with _ => _ end] => destruct x end; try discriminate; injection H as <-; cbn; rewrite ?upd_other by lia; exact R.
  - destruct (net s); try discriminate. destruct (existsb _ _); [|discriminate]. injection H as <-. unfold recv, resend.
    repeat match goal with |- context[match ?x with _ => _ end] => destruct x end; cbn; exact R.
  - unfold net_go in H. repeat match type of H with context[match ?x with _ => _ end] => destruct x end; try discriminate; injection H as <-; exact R.
  - destruct (conn s); [discriminate|]. injection H as <-. exact R.
  - destruct (net s); try discriminate. destruct (status s); try discriminate. injection H as <-. exact R.
  - destruct (net s); try discriminate. destruct (conn s); [|discriminate]. injection H as <-. exact R.
Qed.
Fixpoint calm_all (req : nat -> call) (auth : bool) (es : list event) (s : client) : bool :=
  calmb s && match es with [] => true | e :: r => low_event e && match happens req auth e s with Some s' => calm_all req auth r s' | None => false end end.
Lemma check_reached req auth s0 : forall es s s', rest0 s -> runs req auth s0 s -> calm_all req auth es s = true -> happen req auth es s = Some s' -> runs req auth s0 s'.
Proof.
  induction es as [|e es IH]; intros s s' R0 R C H; cbn [happen calm_all] in *; [injection H as <-; exact R|].
  apply andb_prop in C as [_ C]. apply andb_prop in C as [L C]. destruct (happens req auth e s) as [t|] eqn:E; [|discriminate].
  pose proof (rest_step _ _ _ _ _ R0 L E) as RT. apply (IH t s'); auto. eapply runs1; [exact R|exact E|]. apply calmb_calm; [exact RT|]. destruct es; cbn [calm_all] in C; apply andb_prop in C as [C _]; exact C.
Qed.
Definition none : nat -> option (Z * list Z) := fun _ => None.
Definition steps (n i : nat) : list event := repeat (Go i) n.
Definition after (req : nat -> call) (auth : bool) (es : list event) : client := match happen req auth es (start none) with Some s => s | None => start none end.
(** the subscription is made, the waiting call and the other one are sent between each other, a message of the subscription comes
    first, then both answers, the later request first *)
Definition play2 : list event := [Connect; Login] ++ steps 5 1 ++ steps 3 0 ++ steps 5 2 ++ steps 3 0.
Definition play3 : list event :=
  play2 ++ [Recv (mka 0 (Some 104) (cs "day"%string) 1); Net; Net; Recv (mka 2 (Some 0) (cs "stored"%string) 2); Net; Net; Recv (mka 1 (Some 0) (cs "found"%string) 0); Net; Net; Go 0].
Lemma rest_start old : rest0 (start old).
Proof. intros i _. reflexivity. Qed.
Lemma reached_by req auth es s : happen req auth es (start none) = Some s -> calm_all req auth es (start none) = true -> reached req auth none s.
Proof. intros H C. eapply check_reached; [apply rest_start|apply runs0|exact C|exact H]. Qed.
Lemma happen_after req auth es : (match happen req auth es (start none) with Some _ => true | None => false end) = true -> happen req auth es (start none) = Some (after req auth es).
Proof. unfold after. destruct (happen req auth es (start none)); [reflexivity|discriminate]. Qed.
Example C78_own_ex : let s := after calls true play3 in
  fair calls /\ reached calls true none s /\ List.length (told s) = 3%nat /\ ph s 0 = PDone Success /\ ph s 2 = PDone Success /\ bad s = false /\
  got s 0 = Some (0, cs "found"%string).
Proof.
  cbv zeta. split; [exact calls_fair|]. split; [|vm_compute; repeat split].
  apply (reached_by calls true play3); [apply happen_after; vm_compute; reflexivity|vm_compute; reflexivity].
Qed.
(** the state before the answers meets the hypotheses of C78_finish and C78_sub_every *)
Example C78_finish_ex : let s := after calls true play2 in
  reached calls true none s /\ q_wait (calls 0) = true /\ ph s 0 = PWait /\ got s 0 = None /\ In (1, 0%nat) (sent s) /\ status s = SWork /\ net s = NIdle /\
  sub calls 1 = true /\ In (0, 1%nat) (sent s).
Proof.
  cbv zeta. split; [|vm_compute; tauto].
  apply (reached_by calls true play2); [apply happen_after; vm_compute; reflexivity|vm_compute; reflexivity].
Qed.
(** the connection ends and comes again: C78_again *)
Example C78_again_ex : let s := after calls true (play3 ++ [Disconnect; Connect]) in
  reached calls true none s /\ status s = SAuth /\ net s = NIdle /\ sub calls 1 = true /\ ph s 1 = PDone Success /\ sent s = [].
Proof.
  cbv zeta. split; [|vm_compute; tauto].
  apply (reached_by calls true (play3 ++ [Disconnect; Connect])); [apply happen_after; vm_compute; reflexivity|vm_compute; reflexivity].
Qed.
Example C78_sub_ex : is_sub (cs "db.ZSub"%string) = Some true /\ is_sub (cs "db.subs"%string) = Some false.
Proof. split; vm_compute; reflexivity. Qed.

(** * what does not hold *)
(** two calls at ask_sno++ at the same time get the same number: the answer of one is given to the other, or its request is used
    after it was freed (sisdb_client.c:299, 302) *)
Definition gets (i : nat) : call := mkcall true (cs (if Nat.eqb i 0 then "db.get" else "db.del")%string).
Definition race : list event := [Connect; Go 0; Go 1; Go 0; Go 1; Go 0; Go 1] ++ steps 3 0 ++ steps 3 1 ++ [Recv (mka 0 (Some 0) (cs "x"%string) 0); Net; Net; Go 1].
Theorem C78_race_refuted :
  (exists req es s, fair req /\ happen req false es (start none) = Some s /\
     exists i j a d, In (i, a, d) (told s) /\ a_for a = j /\ i <> j /\ ph s i = PDone Success /\ ph s j = PWait) /\
  (exists req es s, fair req /\ happen req false es (start none) = Some s /\ bad s = true).
Proof.
  assert (F : fair gets) by (split; intros [|i]; vm_compute; congruence). split.
  - exists gets, race, (after gets false race). split; [exact F|]. split; [apply happen_after; vm_compute; reflexivity|].
    exists 1%nat, 0%nat, (mka 0 (Some 0) (cs "x"%string) 0), (0, cs "x"%string). vm_compute. repeat split; auto; try discriminate.
  - set (es := [Connect; Go 0; Go 1; Go 0; Go 1; Go 0; Go 1; Go 0; Go 1; Go 0; Go 0]%nat). exists gets, es, (after gets false es).
    split; [exact F|]. split; [apply happen_after|]; vm_compute; reflexivity.
Qed.
(** the answer of a successful set or del has the tag of a number (sisdb.c:280, 334): the caller is told an error (173-181) *)
Theorem C78_tag_refuted : exists req es s a d,
  fair req /\ reached req false none s /\ happen req false es (start none) = Some s /\ In (0%nat, a, d) (told s) /\ a_for a = 0%nat /\
  a_tag a = Some 1 /\ means 1 = Success /\ ph s 0 = PDone Failure /\ fst d = -2.
Proof.
  set (es := [Connect] ++ steps 6 0 ++ [Recv (mka 0 (Some 1) (cs "1"%string) 0); Net; Net; Go 0]). exists gets, es, (after gets false es), (mka 0 (Some 1) (cs "1"%string) 0), (-2, cs "1"%string).
  assert (F : fair gets) by (split; intros [|i]; vm_compute; congruence). assert (H : happen gets false es (start none) = Some (after gets false es)) by (apply happen_after; vm_compute; reflexivity).
  split; [exact F|]. split; [apply (reached_by gets false es _ H); vm_compute; reflexivity|]. split; [exact H|]. vm_compute. repeat split; auto.
Qed.
(** a waiting call with a subscription: its second message is written into a message that was given up *)
Theorem C78_wait_sub_refuted : exists req es s, (forall i, is_sub (q_cmd (req i)) <> None) /\ reached req false none s /\
  happen req false es (start none) = Some s /\ bad s = true.
Proof.
  set (es := [Connect] ++ steps 6 0 ++ [Recv (mka 0 (Some 103) [] 0); Net; Net; Go 0; Recv (mka 0 (Some 0) [7] 0); Net]).
  set (req := fun _ : nat => mkcall true (cs "db.sub"%string)). exists req, es, (after req false es).
  assert (H : happen req false es (start none) = Some (after req false es)) by (apply happen_after; vm_compute; reflexivity).
  split; [intros i; vm_compute; congruence|]. split; [apply (reached_by req false es _ H); vm_compute; reflexivity|]. split; [exact H|vm_compute; reflexivity].
Qed.
(** a subscription without the name of a service gets one message and no more *)
Theorem C78_bare_sub_refuted : exists req es s, fair req /\ sub_word (q_cmd (req 0%nat)) /\ reached req false none s /\
  happen req false (es ++ [Recv (mka 0 (Some 0) [1] 0); Net; Net]) (start none) = Some s /\
  (exists d, told s = [(0%nat, mka 0 (Some 0) [1] 0%nat, d)]) /\ happen req false [Recv (mka 0 (Some 0) [2] 0)] s = Some s.
Proof.
  set (es := [Connect] ++ steps 5 0). set (fs := es ++ [Recv (mka 0 (Some 0) [1] 0); Net; Net]).
  set (req := fun _ : nat => mkcall false (cs "sub"%string)). exists req, es, (after req false fs).
  assert (H : happen req false fs (start none) = Some (after req false fs)) by (apply happen_after; vm_compute; reflexivity).
  split; [split; intros i; vm_compute; congruence|]. split; [left; reflexivity|]. split; [apply (reached_by req false fs _ H); vm_compute; reflexivity|]. split; [exact H|].
  split; [eexists; vm_compute; reflexivity|vm_compute; reflexivity].
Qed.
(** a command with 128 bytes behind the point overruns the buffer *)
Theorem C78_long_refuted : exists req, forall auth s i, status s = SWork -> ph s i = P0 -> exists s', happens req auth (Go i) s = Some s' /\ bad s' = true.
Proof.
  exists (fun _ => mkcall false (100 :: 46 :: repeat 120 128)). intros auth s i SW PH. cbn [happens]. unfold go. rewrite PH, SW.
  assert (E : is_sub (100 :: 46 :: repeat 120 128) = None) by (vm_compute; reflexivity). cbn [q_cmd]. rewrite E. eexists. split; reflexivity.
Qed.
Lemma happen_keeps (Q : client -> Prop) req auth : (forall e s s', Q s -> happens req auth e s = Some s' -> Q s') ->
  forall es s s', Q s -> happen req auth es s = Some s' -> Q s'.
Proof.
  intros K. induction es as [|e es IH]; intros s s' H E; cbn in E; [injection E as <-; exact H|]. destruct (happens req auth e s) as [t|] eqn:T; [|discriminate].
  apply (IH t s'); [exact (K e s t H T)|exact E].
Qed.
(** without a login a new connection gets no subscription again: it stays in the map, is counted as working, and nothing asks the
    server for it (sisdb_client.c:224-246; only _cb_recv sends them, 190-211) *)
Definition unsent (s : client) : Prop := status s <> SAuth /\ ph s 1 = PDone Success /\ (forall n, ~ In (n, 1%nat) (sent s)).
Lemma unsent_keeps e s s' : unsent s -> happens calls false e s = Some s' -> unsent s'.
Proof.
  intros (A & B & C) H. destruct e as [i|a| | | |]; cbn [happens] in H.
  - destruct (Nat.eq_dec i 1) as [->|NE]; [unfold go in H; rewrite B in H; discriminate|].
    assert (X : status s' = status s /\ ph s' 1 = ph s 1 /\ (sent s' = sent s \/ sent s' = (num s i, i) :: sent s)).
    { unfold go in H. repeat match type of H with context[match ?x with _ => _ end] => destruct x eqn:? end; try discriminate; injection H as <-; fields; cbn;
        rewrite ?upd_other by congruence; auto. }
    destruct X as (X & Y & Z). unfold unsent. rewrite X, Y. split; [exact A|split; [exact B|]]. intros n I. destruct Z as [Z|Z]; rewrite Z in I; [exact (C n I)|].
    destruct I as [I|I]; [congruence|exact (C n I)].
  - destruct (net s); try discriminate. destruct (existsb _ _); [|discriminate]. injection H as <-. unfold recv.
    destruct (status s) eqn:S; [split; [congruence|auto]|congruence|]. destruct (find_ask _ _); [|unfold unsent; rewrite S; repeat split; auto].
    destruct (a_tag a); unfold unsent; cbn [set_net status ph sent]; rewrite S; repeat split; auto.
  - unfold net_go in H. repeat match type of H with context[match ?x with _ => _ end] => destruct x end; try discriminate; injection H as <-; unfold unsent; fields; auto.
  - destruct (conn s); [discriminate|]. injection H as <-. repeat split; auto. discriminate.
  - destruct (net s); try discriminate. destruct (status s); try discriminate. congruence.
  - destruct (net s); try discriminate. destruct (conn s); [|discriminate]. injection H as <-. repeat split; auto. discriminate.
Qed.
Theorem C78_resub_refuted : exists req es s i, fair req /\ reached req false none s /\ happen req false es (start none) = Some s /\
  sub req i = true /\ ph s i = PDone Success /\ status s = SWork /\ conn s = true /\ In (num s i, i) (asks s) /\
  forall fs s', happen req false fs s = Some s' -> forall n, ~ In (n, i) (sent s').
Proof.
  set (es := [Connect] ++ steps 5 1 ++ [Disconnect; Connect]). exists calls, es, (after calls false es), 1%nat.
  assert (H : happen calls false es (start none) = Some (after calls false es)) by (apply happen_after; vm_compute; reflexivity).
  split; [exact calls_fair|]. split; [apply (reached_by calls false es _ H); vm_compute; reflexivity|]. split; [exact H|].
  split; [reflexivity|]. split; [reflexivity|]. split; [reflexivity|]. split; [reflexivity|]. split; [left; reflexivity|].
  intros fs s' K. apply (happen_keeps unsent calls false unsent_keeps fs (after calls false es) s'); [|exact K].
  split; [discriminate|]. split; [reflexivity|]. intros n [].
Qed.
(** a connection that ends before the answer: the call waits for ever, also after any new connection *)
Record lost (s : client) : Prop := mklost {
  lA : ph s 0 = PWait; lB : got s 0 = None; lC : num s 0 = 0;
  lD : match net s with NIdle => True | NGot _ i => i <> 0%nat | NDel i => i <> 0%nat end;
  lE : forall n j, In (n, j) (asks s) -> num s j = n /\ past (ph s j);
  lF : forall n j, In (n, j) (sent s) -> num s j = n /\ past (ph s j) /\ j <> 0%nat;
  lG : forall n, In (n, 0%nat) (asks s) -> forall j, past (ph s j) -> num s j = 0 -> j = 0%nat }.
Lemma lost_resend req s : sub req 0 = false -> lost s -> lost (resend req s).
Proof.
  intros Q [A B C D E F G]. constructor; cbn [resend]; fields; auto. intros n j I. apply in_app_or in I as [I|I]; [|eauto]. apply filter_In in I as [I J]. cbn in J.
  destruct (E n j I). repeat split; auto. intros ->. congruence.
Qed.
Lemma upd_ext {A} (P : A -> Prop) (f : nat -> A) i v : (forall j, j <> i -> P (f j)) -> P v -> forall j, P (upd f i v j).
Proof. intros H V j. destruct (Nat.eq_dec j i) as [->|N]; [rewrite upd_same; exact V|rewrite upd_other by exact N; exact (H j N)]. Qed.
Lemma lost_phase s i p : lost s -> i <> 0%nat -> (past (ph s i) <-> past p) -> lost (set_ph s i p).
Proof.
  intros [A B C D E F G] N P. assert (X : forall j, past (upd (ph s) i p j) <-> past (ph s j)).
  { intros j. destruct (Nat.eq_dec j i) as [->|M]; [rewrite upd_same; symmetry; exact P|rewrite upd_other by exact M; reflexivity]. }
  constructor; fields; auto; rewrite ?upd_other by congruence; auto.
  - intros n j I. rewrite X. auto.
  - intros n j I. rewrite X. auto.
  - intros n I j. rewrite X. eauto.
Qed.
Lemma lost_keeps req auth e s s' : sub req 0 = false -> lost s -> happens req auth e s = Some s' -> lost s'.
Proof.
  intros Q L H. destruct e as [i|a| | | |]; cbn [happens] in H.
  - unfold go in H. destruct (Nat.eq_dec i 0) as [->|N]; [destruct L as [A B _ _ _ _ _]; rewrite A, B in H; discriminate|].
    destruct (ph s i) as [| |r| | | | |o] eqn:PH.
    + assert (X : lost (set_ph s i PRead) /\ lost (set_ph s i (PDone Refused)) /\ lost (set_bad s)).
      { split; [|split]; [apply lost_phase; auto; rewrite PH; cbn; tauto|apply lost_phase; auto; rewrite PH; cbn; tauto|destruct L; constructor; auto]. }
      destruct X as (X & Y & Z). destruct (status s); [| |destruct (is_sub _)]; injection H as <-; assumption.
    + injection H as <-. apply lost_phase; auto; rewrite PH; cbn; tauto.
    + injection H as <-. destruct L as [A B C D E F G]. constructor; fields; rewrite ?upd_other by congruence; auto.
      * intros n j I. destruct (E n j I) as (X & Y). assert (j <> i) by (intros ->; rewrite PH in Y; destruct Y). rewrite !upd_other by assumption. auto.
      * intros n j I. destruct (F n j I) as (X & Y & Z). assert (j <> i) by (intros ->; rewrite PH in Y; destruct Y). rewrite !upd_other by assumption. auto.
      * intros n I j. destruct (Nat.eq_dec j i) as [->|M]; [rewrite !upd_same; intros []|rewrite !upd_other by exact M; eauto].
    + injection H as <-. destruct L as [A B C D E F G]. set (p := if q_wait (req i) then PClear else PSend). assert (PP : past p) by (unfold p; destruct (q_wait _); exact Logic.I).
      constructor; fields; rewrite ?upd_other by congruence; auto.
      * intros n j [I|I]; [injection I as <- <-; rewrite upd_same; auto|]. apply in_drop in I as [I _]. destruct (E n j I) as (X & Y). split; [exact X|].
        destruct (Nat.eq_dec j i) as [->|M]; [rewrite upd_same; exact PP|rewrite upd_other by exact M; exact Y].
      * intros n j I. destruct (F n j I) as (X & Y & Z). assert (j <> i) by (intros ->; rewrite PH in Y; destruct Y). rewrite !upd_other by assumption. auto.
      * intros n [I|I] j; [injection I as _ I; congruence|]. apply in_drop in I as [I M0]. cbn in M0. destruct (E _ _ I) as (X & _). rewrite C in X. subst n.
        destruct (Nat.eq_dec j i) as [->|M]; [rewrite upd_same; intros _ Y; congruence|rewrite upd_other by exact M; eauto].
    + injection H as <-. apply (lost_phase s i PSend) in L; [|exact N|rewrite PH; cbn; tauto]. destruct L as [A B C D E F G]. fields. constructor; fields; auto. rewrite upd_other by congruence. exact B.
    + destruct (freed s i); injection H as <-; [destruct L; constructor; auto|]. set (p := if q_wait (req i) then PWait else PDone Success).
      apply (lost_phase s i p) in L; [|exact N|rewrite PH; unfold p; destruct (q_wait _); cbn; tauto]. destruct L as [A B C D E F G]. fields. constructor; fields; auto.
      intros n j I. assert (I' : (n, j) = (num s i, i) \/ In (n, j) (sent s)) by (destruct (conn s); [destruct I as [<-|I]; auto|auto]). destruct I' as [I'|I']; [|eauto].
      injection I' as -> ->. rewrite upd_same. repeat split; auto. unfold p. destruct (q_wait _); exact Logic.I.
    + destruct (got s i) as [[t x]|]; [|discriminate]. injection H as <-. apply lost_phase; auto; rewrite PH; destruct (t <? 0); cbn; tauto.
    + discriminate.
  - destruct (net s) eqn:NE; try discriminate. destruct (existsb _ (sent s)) eqn:EX; [|discriminate]. injection H as <-. unfold recv. destruct (status s); [exact L| |].
    + destruct (a_tag a) as [[]|]; auto using lost_resend.
    + destruct (find_ask (a_name a) (asks s)) as [k|] eqn:FA; [|exact L]. destruct (a_tag a); [|exact L]. destruct L as [A B C D E F G].
      constructor; fields; auto. intros ->. apply find_in in FA. destruct (E _ _ FA) as (X & _). rewrite C in X.
      apply existsb_exists in EX as ([n j] & I & Y). cbn in Y. apply andb_prop in Y as [Y Z]. apply Z.eqb_eq in Y. apply Nat.eqb_eq in Z. subst.
      destruct (F _ _ I) as (U & V & W). apply W. apply (G _ FA); [exact V|congruence].
  - unfold net_go in H. destruct (net s) as [|b k|k] eqn:NE; [discriminate| |].
    + destruct L as [A B C D E F G]. rewrite NE in D. destruct (freed s k); [injection H as <-; constructor; fields; rewrite ?NE; auto|].
      destruct (q_wait (req k)).
      * assert (X : s' = set_bad s \/ s' = mkc (sno s) (ph s) (num s) (asks s) (freed s) (upd (got s) k (Some (reply (match a_tag b with Some t => t | None => 0 end) (a_info b)))) (status s) (conn s) (NDel k) (sent s)
                         ((k, b, reply (match a_tag b with Some t => t | None => 0 end) (a_info b)) :: told s) (bad s)) by (destruct (ph s k); injection H as <-; auto).
        destruct X as [-> | ->]; constructor; fields; rewrite ?NE, ?upd_other by congruence; auto.
      * injection H as <-. constructor; fields; auto.
    + destruct L as [A B C D E F G]. rewrite NE in D. destruct (freed s k); [injection H as <-; constructor; fields; rewrite ?NE; auto|].
      destruct (sub req k); injection H as <-; constructor; fields; auto; [intros n j I|intros n I]; apply in_drop in I as [I _]; eauto.
  - destruct (conn s); [discriminate|]. injection H as <-. destruct L. constructor; fields; auto. intros n j [].
  - destruct (net s); try discriminate. destruct (status s); try discriminate. injection H as <-. auto using lost_resend.
  - destruct (net s); try discriminate. destruct (conn s); [|discriminate]. injection H as <-. destruct L. constructor; fields; auto. intros n j [].
Qed.
Theorem C78_lost_refuted : exists req es s i, fair req /\ reached req false none s /\ happen req false es (start none) = Some s /\
  q_wait (req i) = true /\ ph s i = PWait /\ status s = SWork /\ conn s = true /\
  forall fs s', happen req false fs s = Some s' -> ph s' i = PWait.
Proof.
  set (es := [Connect] ++ steps 6 0 ++ [Disconnect; Connect]). exists calls, es, (after calls false es), 0%nat.
  assert (H : happen calls false es (start none) = Some (after calls false es)) by (apply happen_after; vm_compute; reflexivity).
  split; [exact calls_fair|]. split; [apply (reached_by calls false es _ H); vm_compute; reflexivity|]. split; [exact H|].
  split; [reflexivity|]. split; [reflexivity|]. split; [reflexivity|]. split; [reflexivity|].
  intros fs s' K. apply lA. apply (happen_keeps lost calls false (fun e x y => lost_keeps calls false e x y eq_refl) fs (after calls false es) s'); [|exact K].
  constructor; try reflexivity.
  - intros n j I. vm_compute in I. destruct I as [I|[]]. injection I as <- <-. split; [reflexivity|exact Logic.I].
  - intros n j [].
  - intros n I j. destruct j as [|j]; [reflexivity|]. intros X. vm_compute in X. destruct X.
Qed.
(** after 16777215 requests the numbers start again: a subscription that is still in use loses its place to another request, which
    then gets its messages (sisdb_client.c:299-302) *)
Definition many (i : nat) : call := mkcall false (cs (if Nat.eqb i 0 then "db.sub" else "db.set")%string).
Lemma many_fair : fair many.
Proof. split; intros [|i]; vm_compute; congruence. Qed.
Record counted (k : nat) (s : client) : Prop := mkcounted {
  kA : sno s = Z.of_nat k; kB : status s = SWork; kC : conn s = true; kD : net s = NIdle; kE : forall i, (i < k)%nat -> ph s i = PDone Success;
  kF : forall i, (k <= i)%nat -> ph s i = P0; kG : forall n i, In (n, i) (asks s) -> 0 <= n < Z.of_nat k; kH : forall i, freed s i = false;
  kI : (0 < k)%nat -> find_ask 0 (asks s) = Some 0%nat /\ In (0, 0%nat) (sent s); kJ : num s 0 = 0 }.
Lemma find_cons n i l m : find_ask m ((n, i) :: l) = if n =? m then Some i else find_ask m l.
Proof. unfold find_ask. cbn [find fst]. destruct (n =? m); reflexivity. Qed.
Lemma find_drop n m l : n <> m -> find_ask m (drop_ask n l) = find_ask m l.
Proof.
  intros N. induction l as [|[x j] l IH]; [reflexivity|]. rewrite find_cons. unfold drop_ask in *. cbn [filter fst]. destruct (Z.eqb_spec x n) as [->|X]; cbn [negb].
  - replace (n =? m) with false by lia. exact IH.
  - rewrite find_cons, IH. reflexivity.
Qed.
Lemma find_fresh n l : (forall m i, In (m, i) l -> m <> n) -> find_ask n l = None.
Proof. intros H. destruct (find_ask n l) as [i|] eqn:F; [|reflexivity]. apply find_in in F. destruct (H _ _ F eq_refl). Qed.
Definition numbered_call (s : client) (k : nat) (n : Z) : client :=
  mkc (to_u 32 (Z.of_nat k + 1)) (upd (upd (upd (upd (upd (ph s) k PRead) k (PInc (Z.of_nat k))) k PSet) k PSend) k (PDone Success))
    (upd (num s) k n) ((n, k) :: drop_ask n (asks s)) (free_ask n s) (got s) (status s) (conn s) (net s) ((n, k) :: sent s) (told s) (bad s).
Lemma many_call k s : counted k s -> freed s k = false -> find_ask (Z.of_nat k mod 16777215) (asks s) <> Some k ->
  happen many false (steps 5 k) s = Some (numbered_call s k (Z.of_nat k mod 16777215)).
Proof.
  intros [A B C D E F G H I J] FR NF. set (n := Z.of_nat k mod 16777215) in *.
  set (s1 := set_ph s k PRead). set (s2 := set_ph s1 k (PInc (Z.of_nat k))).
  set (s3 := mkc (to_u 32 (Z.of_nat k + 1)) (upd (ph s2) k PSet) (upd (num s) k n) (asks s) (freed s) (got s) (status s) (conn s) (net s) (sent s) (told s) (bad s)).
  set (s4 := mkc (to_u 32 (Z.of_nat k + 1)) (upd (ph s3) k PSend) (upd (num s) k n) ((n, k) :: drop_ask n (asks s)) (free_ask n s) (got s) (status s) (conn s) (net s) (sent s) (told s) (bad s)).
  assert (H1 : go many k s = Some s1).
  { unfold go. rewrite (F k) by lia. rewrite B. destruct (is_sub (q_cmd (many k))) eqn:IS; [reflexivity|destruct (proj1 many_fair k IS)]. }
  assert (H2 : go many k s1 = Some s2) by (unfold go, s1; fields; rewrite upd_same, A; reflexivity).
  assert (H3 : go many k s2 = Some s3) by (unfold go, s2; fields; rewrite upd_same; reflexivity).
  assert (H4 : go many k s3 = Some s4) by (unfold go, s3; fields; rewrite !upd_same; reflexivity).
  assert (Y : free_ask n s k = false).
  { unfold free_ask. destruct (find_ask n (asks s)) as [j|] eqn:FA; [|exact FR]. rewrite upd_other by congruence. exact FR. }
  assert (H5 : go many k s4 = Some (numbered_call s k n)) by (unfold go, s4, numbered_call; fields; rewrite !upd_same, Y, C; reflexivity).
  cbn [steps repeat happen happens]. rewrite H1, H2, H3, H4, H5. reflexivity.
Qed.
Lemma many_step k s : counted k s -> Z.of_nat k < 16777215 -> exists s', happen many false (steps 5 k) s = Some s' /\ counted (S k) s'.
Proof.
  intros K L. assert (M : Z.of_nat k mod 16777215 = Z.of_nat k) by (apply Z.mod_small; lia).
  assert (FN : find_ask (Z.of_nat k) (asks s) = None) by (apply find_fresh; intros m i I; pose proof (kG _ _ K m i I); lia).
  pose proof (many_call k s K (kH _ _ K k)) as H. rewrite M, FN in H. specialize (H ltac:(discriminate)). eexists. split; [exact H|]. destruct K as [A B C D E F G FR I J]. unfold numbered_call.
  constructor; fields; auto.
  - unfold to_u. rewrite Z.mod_small by lia. lia.
  - intros i Li. destruct (Nat.eq_dec i k) as [->|N]; [apply upd_same|rewrite !upd_other by exact N; apply E; lia].
  - intros i Li. rewrite !upd_other by lia. apply F. lia.
  - intros n i [X|X]; [injection X as <- <-; lia|]. apply in_drop in X as [X _]. specialize (G n i X). lia.
  - intros i. unfold free_ask. rewrite FN. apply FR.
  - intros _. rewrite find_cons. destruct k as [|k]; [split; [reflexivity|left; reflexivity]|]. destruct (I ltac:(lia)) as (U & V). replace (Z.of_nat (S k) =? 0) with false by lia.
    rewrite find_drop by lia. split; [exact U|right; exact V].
  - destruct k as [|k]; [apply upd_same|rewrite upd_other by lia; exact J].
Qed.
Lemma happen_app req auth es : forall fs s t, happen req auth es s = Some t -> happen req auth (es ++ fs) s = happen req auth fs t.
Proof. induction es as [|e es IH]; intros fs s t H; cbn in *; [injection H as <-; reflexivity|]. destruct (happens req auth e s); [|discriminate]. exact (IH _ _ _ H). Qed.
Lemma many_all : forall k, Z.of_nat k <= 16777215 -> exists es s, happen many false es (start none) = Some s /\ counted k s.
Proof.
  induction k as [|k IH]; intros L.
  - exists [Connect]. eexists. split; [reflexivity|]. constructor; fields; auto; try reflexivity; try (intros; lia). intros n i [].
  - destruct (IH ltac:(lia)) as (es & s & H & K). destruct (many_step k s K ltac:(lia)) as (s' & H' & K'). exists (es ++ steps 5 k), s'. split; [|exact K'].
    rewrite (happen_app _ _ _ _ _ _ H). exact H'.
Qed.
Lemma net_got req s a j : freed s j = false -> q_wait (req j) = false ->
  exists s', net_go req (set_net s (NGot a j)) = Some s' /\ told s' = (j, a, reply (match a_tag a with Some t => t | None => 0 end) (a_info a)) :: told s.
Proof. intros F Q. unfold net_go. cbn [set_net net freed]. rewrite F, Q. eexists. split; reflexivity. Qed.
Theorem C78_wrap_refuted : exists req es s i j t, fair req /\ happen req false es (start none) = Some s /\ sub req i = true /\ ph s i = PDone Success /\
  In (num s i, i) (sent s) /\ i <> j /\ sub req j = false /\
  (forall x, exists s', happen req false [Recv (mka (num s i) (Some t) x i); Net] s = Some s' /\ told s' = (j, mka (num s i) (Some t) x i, (t, x)) :: told s).
Proof.
  set (N := Z.to_nat 16777215). assert (ZN : Z.of_nat N = 16777215) by (unfold N; rewrite Z2Nat.id; lia).
  clearbody N. destruct (many_all N ltac:(lia)) as (es & s & H & K). pose proof (many_call N s K (kH _ _ K N)) as G.
  rewrite ZN in G. change (16777215 mod 16777215) with 0 in G. destruct (kI _ _ K ltac:(lia)) as (U & V). rewrite U in G.
  assert (NZ : N <> 0%nat) by lia. specialize (G ltac:(congruence)). set (s1 := numbered_call s N 0) in *.
  exists many, (es ++ steps 5 N), s1, 0%nat, N, 0. split; [exact many_fair|]. split; [rewrite (happen_app _ _ _ _ _ _ H); exact G|]. split; [reflexivity|].
  split; [unfold s1, numbered_call; fields; rewrite !upd_other by congruence; apply (kE _ _ K); lia|].
  assert (NU : num s1 0 = 0) by (unfold s1, numbered_call; fields; rewrite upd_other by congruence; exact (kJ _ _ K)). rewrite NU.
  split; [right; exact V|]. split; [congruence|]. split; [destruct N; [congruence|reflexivity]|]. intros x. cbn [happen happens].
  replace (net s1) with NIdle by (symmetry; exact (kD _ _ K)).
  assert (EX : existsb (fun y => (fst y =? a_name (mka 0 (Some 0) x 0)) && Nat.eqb (snd y) (a_for (mka 0 (Some 0) x 0))) (sent s1) = true).
  { apply existsb_exists. exists (0, 0%nat). split; [right; exact V|reflexivity]. }
  rewrite EX. unfold recv. replace (status s1) with SWork by (symmetry; exact (kB _ _ K)). cbn [a_name a_tag]. change (asks s1) with ((0, N) :: drop_ask 0 (asks s)).
  rewrite find_cons. cbn [Z.eqb].
  assert (FR : freed s1 N = false) by (unfold s1, numbered_call; fields; unfold free_ask; rewrite U, upd_other by congruence; apply (kH _ _ K)).
  destruct (net_got many s1 (mka 0 (Some 0) x 0) N FR eq_refl) as (s2 & E2 & T2). exists s2. split; [|exact T2].
  change (match net_go many (set_net s1 (NGot (mka 0 (Some 0) x 0) N)) with Some s' => Some s' | None => None end = Some s2). rewrite E2. reflexivity.
Qed.

Print Assumptions C78_own.
Print Assumptions C78_once.
Print Assumptions C78_safe.
Print Assumptions C78_result.
Print Assumptions C78_finish.
Print Assumptions C78_sub_every.
Print Assumptions C78_again.
Print Assumptions C78_sub.
Print Assumptions C78_race_refuted.
Print Assumptions C78_tag_refuted.
Print Assumptions C78_wait_sub_refuted.
Print Assumptions C78_bare_sub_refuted.
Print Assumptions C78_long_refuted.
Print Assumptions C78_resub_refuted.
Print Assumptions C78_lost_refuted.
Print Assumptions C78_wrap_refuted.
