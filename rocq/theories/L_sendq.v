(** Lemmas on the send queue. *)
From Coq Require Import ZArith List Bool Lia Arith.
From Coq Require Import ZifyBool ZifyNat Sorting.Permutation.
From Verif Require Import S_sendq M_sendq.
Import ListNotations.
Open Scope Z_scope.

Arguments Z.eqb : simpl never.

(** ** traces *)
Lemma sent_app : forall a b k, sent (a ++ b) k = sent a k ++ sent b k.
Proof.
  induction a as [|e a IH]; intros b k; [reflexivity|].
  destruct e as [j x|j x|j|j|j]; cbn [sent app]; try apply IH.
  destruct (j =? k); [rewrite IH, app_assoc; reflexivity | apply IH].
Qed.

Lemma got_app : forall a b k, got (a ++ b) k = got a k ++ got b k.
Proof.
  induction a as [|e a IH]; intros b k; [reflexivity|].
  destruct e as [j x|j x|j|j|j]; cbn [got app]; try apply IH.
  destruct (j =? k); [rewrite IH, app_assoc; reflexivity | apply IH].
Qed.

Lemma writes_app : forall a b, writes (a ++ b) = (writes a + writes b)%nat.
Proof.
  induction a as [|e a IH]; intros b; [reflexivity|].
  destruct e as [j x|j x|j|j|j]; cbn [writes app]; rewrite ?IH; reflexivity.
Qed.

Lemma sent_one : forall j b k, sent [Sent j b] k = if j =? k then b else [].
Proof. intros. cbn [sent]. destruct (j =? k); [apply app_nil_r | reflexivity]. Qed.
Lemma got_one : forall j b k, got [Got j b] k = if j =? k then b else [].
Proof. intros. cbn [got]. destruct (j =? k); [apply app_nil_r | reflexivity]. Qed.

(** ** chains *)
Lemma set_same : forall (A : Type) (f : Z -> A) i x, set f i x i = x.
Proof. intros. unfold set. rewrite Z.eqb_refl. reflexivity. Qed.
Lemma set_other : forall (A : Type) (f : Z -> A) i x j, j <> i -> set f i x j = f j.
Proof. intros. unfold set. destruct (j =? i) eqn:E; [lia | reflexivity]. Qed.

Lemma around_ok : forall i l, In i l -> exists a b, around i l = (a, b) /\ l = a ++ i :: b /\ ~ In i a.
Proof.
  induction l as [|x t IH]; intros H; [destruct H|].
  cbn [around]. destruct (x =? i) eqn:E.
  - exists [], t. replace x with i by lia. repeat split. intros [].
  - destruct H as [H|H]; [lia|]. destruct (IH H) as (a & b & E1 & E2 & E3).
    rewrite E1. exists (x :: a), b. rewrite E2. repeat split. intros [K|K]; [lia | exact (E3 K)].
Qed.

Lemma put_ok : forall c i a b, ~ In c a -> put_after c i (a ++ c :: b) = a ++ c :: i :: b.
Proof.
  induction a as [|x t IH]; intros b H; cbn [app put_after].
  - rewrite Z.eqb_refl. reflexivity.
  - destruct (x =? c) eqn:E; [exfalso; apply H; left; lia|].
    rewrite IH; [reflexivity|]. intro K. apply H. right. exact K.
Qed.

Lemma here_in : forall i l, here i l = true <-> In i l.
Proof.
  intros i l. unfold here. rewrite existsb_exists. split.
  - intros (x & I1 & E). replace i with x by lia. exact I1.
  - intros I1. exists i. split; [exact I1 | apply Z.eqb_refl].
Qed.

Lemma find_cid_some : forall s c i, find_cid s c = Some i -> In i (nds s) /\ cid s i = c.
Proof. intros s c i H. apply find_some in H. split; [tauto | lia]. Qed.

Lemma find_cid_none : forall s c i, find_cid s c = None -> In i (nds s) -> cid s i <> c.
Proof. intros s c i H I1. pose proof (find_none _ _ H i I1). cbn in *. lia. Qed.

(** bytes waiting for a slot *)
Definition pend (s : st) (c : Z) : list Z :=
  match find_cid s c with Some i => rd s i ++ wr s i | None => [] end.

(** no work is under way for the node in work_node *)
Definition quiet (s : st) : Prop := pc s = RLook /\ asy s = false /\ fly s = [].

(** a client does not end, and no write fails, while the reader thread or libuv is at its node *)
Definition calm (a : act) (s : st) : Prop :=
  match a with
  | AEnd c => forall i, wrk s = Some i -> cid s i = c -> quiet s
  | AAsync false => pc s = RLook
  | ADone _ false => pc s = RLook
  | _ => True
  end.

Fixpoint calm_run (acts : list act) (s : st) : Prop :=
  match acts with
  | [] => True
  | a :: t => calm a s /\ match step a s with Some s' => calm_run t s' | None => True end
  end.

Lemma run_app : forall a b s, run (a ++ b) s = match run a s with Some s' => run b s' | None => None end.
Proof.
  induction a as [|x a IH]; intros b s; [reflexivity|]. cbn [run app]. destruct (step x s); [apply IH | reflexivity].
Qed.

(** ** the invariant of calm runs *)
Definition busy (s : st) (i : Z) : Prop :=
  wrk s = Some i /\ rd s i <> [] /\ (forall j, pc s <> RLock j) /\
  ((asy s = true /\ fly s = [] /\ pc s <> RCall) \/
   (asy s = false /\ fly s = [] /\ pc s = RCall) \/
   (asy s = false /\ pc s <> RCall /\ exists k, fly s = [(k, i, rd s i)] /\ ses s (cid s i) = Some k)).

Definition rest (s : st) : Prop :=
  asy s = false /\ fly s = [] /\ pc s <> RCall /\ forall i, In i (nds s) -> rd s i = [].

Record inv (s : st) : Prop := {
  i_nd : NoDup (nds s);
  i_cid : forall i j, In i (nds s) -> In j (nds s) -> cid s i = cid s j -> i = j;
  i_ses : forall c c' k, ses s c = Some k -> ses s c' = Some k -> c = c';
  i_fs : forall c k, ses s c = Some k -> k < fs s;
  i_fn : forall i, In i (nds s) -> i < fn s;
  i_sub : forall i, In i (nds s) -> ses s (cid s i) <> None;
  i_cur : match cur s with None => nds s = [] | Some i => In i (nds s) end;
  i_wrk : match wrk s with
          | None => forall i, In i (nds s) -> rd s i = [] /\ wr s i = []
          | Some i => In i (nds s)
          end;
  i_pc : forall i, pc s = RTest i \/ pc s = RLock i -> wrk s = Some i;
  i_oth : forall i, In i (nds s) -> wrk s <> Some i -> rd s i = [];
  i_job : rest s \/ exists i, busy s i;
  i_bad : bad s = false;
  i_open : forall c k, ses s c = Some k ->
           got (log s) k ++ pend s c = sent (log s) k /\ ~ In (Closed k) (log s);
  i_pre : forall k, begins (got (log s) k) (sent (log s) k);
  i_just : justified (log s);
  i_gone : forall k, (exists c, ses s c = Some k) \/
           In (Closed k) (log s) \/ (sent (log s) k = [] /\ got (log s) k = []);
  i_new : forall k, fs s <= k -> sent (log s) k = [] /\ got (log s) k = [] /\ ~ In (Closed k) (log s)
}.

Lemma init_inv : inv init.
Proof.
  constructor; cbn.
  - constructor.
  - intros i j [].
  - intros c c' k H. discriminate.
  - intros c k H. discriminate.
  - intros i [].
  - intros i [].
  - reflexivity.
  - intros i [].
  - intros i [H|H]; discriminate.
  - intros i [].
  - left. split; [reflexivity | split; [reflexivity | split; [discriminate | intros i []]]].
  - reflexivity.
  - intros c k H. discriminate.
  - intros k. exists []. reflexivity.
  - intros k [].
  - intros k. right. right. split; reflexivity.
  - intros k _. split; [reflexivity | split; [reflexivity | intros []]].
Qed.

Lemma pend_id : forall s i, inv s -> In i (nds s) -> find_cid s (cid s i) = Some i.
Proof.
  intros s i V H. destruct (find_cid s (cid s i)) as [j|] eqn:E.
  - destruct (find_cid_some _ _ _ E) as [J1 J2]. f_equal. apply (i_cid _ V); assumption.
  - exfalso. exact (find_cid_none _ _ _ E H eq_refl).
Qed.

(** ** deleting a client *)
Definition clean_del (s : st) (c : Z) : Prop := forall i, wrk s = Some i -> cid s i = c -> quiet s /\ rd s i = [].

Lemma del_fields : forall s c, let d := catch_del s c in
  cid d = cid s /\ rd d = rd s /\ wr d = wr s /\ ses d = ses s /\ asy d = asy s /\ fly d = fly s /\
  pc d = pc s /\ bad d = bad s /\ log d = log s /\ fn d = fn s /\ fs d = fs s.
Proof.
  intros s c. unfold catch_del. destruct (find_cid s c) as [i|]; [|repeat split].
  destruct (around i (nds s)) as [a b]. repeat split.
Qed.

Lemma del_chain : forall s c, inv s ->
  (find_cid s c = None /\ catch_del s c = s) \/
  exists i a b, find_cid s c = Some i /\ nds s = a ++ i :: b /\ ~ In i a /\
    nds (catch_del s c) = a ++ b /\
    cur (catch_del s c) = (match cur s with
        | Some x => if x =? i then match b with y :: _ => Some y
                                   | [] => match a with h :: _ => Some h | [] => None end end else Some x
        | None => None end) /\
    wrk (catch_del s c) = (match wrk s with
        | Some x => if x =? i then cur (catch_del s c) else Some x
        | None => None end).
Proof.
  intros s c V. unfold catch_del. destruct (find_cid s c) as [i|] eqn:E; [|left; split; reflexivity].
  right. destruct (find_cid_some _ _ _ E) as [J1 J2]. destruct (around_ok _ _ J1) as (a & b & E1 & E2 & E3).
  exists i, a, b. rewrite E1. cbn [nds cur wrk]. repeat split; assumption.
Qed.

Lemma find_app_other : forall (f : Z -> bool) a i b, f i = false -> find f (a ++ i :: b) = find f (a ++ b).
Proof.
  induction a as [|x a IH]; intros i b H; cbn [app find]; [rewrite H; reflexivity|].
  destruct (f x); [reflexivity | apply IH; exact H].
Qed.

Lemma del_pend_other : forall s c c', inv s -> c' <> c -> pend (catch_del s c) c' = pend s c'.
Proof.
  intros s c c' V N. destruct (del_chain s c V) as [[_ E]|(i & a & b & E1 & E2 & E3 & E4 & _)]; [rewrite E; reflexivity|].
  destruct (del_fields s c) as (F1 & F2 & F3 & _). cbv zeta in *.
  unfold pend, find_cid. rewrite E4, F1, F2, F3, E2, find_app_other; [reflexivity|].
  destruct (find_cid_some _ _ _ E1). lia.
Qed.

(** sis_socket_server_delete of a client nothing is under way for *)
Lemma delete_inv : forall s c e k, inv s -> clean_del s c -> ses s c = Some k -> (e = Asked k \/ e = Failed k) ->
  inv (server_delete (say s e) c).
Proof.
  intros s c e k V C K HE.
  assert (Hsent : forall j, sent (log s ++ [e] ++ [Closed k]) j = sent (log s) j)
    by (intros j; rewrite !sent_app; destruct HE; subst; cbn; apply app_nil_r).
  assert (Hgot : forall j, got (log s ++ [e] ++ [Closed k]) j = got (log s) j)
    by (intros j; rewrite !got_app; destruct HE; subst; cbn; apply app_nil_r).
  assert (Hcl : forall j, In (Closed j) (log s ++ [e] ++ [Closed k]) <-> In (Closed j) (log s) \/ j = k).
  { intros j. rewrite in_app_iff. cbn. split.
    - intros [H|[H|[H|[]]]]; [tauto | destruct HE; subst; discriminate | injection H as ->; tauto].
    - intros [H|H]; [tauto | subst; tauto]. }
  assert (Vs : forall i, In i (nds s) -> cid s i = c -> find_cid s c = Some i).
  { intros i H <-. apply pend_id; assumption. }
  pose proof (del_fields s c) as (F1 & F2 & F3 & F4 & F5 & F6 & F7 & F8 & F9 & F10 & F11). cbv zeta in *.
  assert (X : server_delete (say s e) c =
     let d := catch_del s c in
     mk (nds d) (cid d) (rd d) (wr d) (cur d) (wrk d) (set (ses d) c None) (asy d) (fly d) (pc d) (bad d)
        (log s ++ [e] ++ [Closed k]) (fn d) (fs d)).
  { unfold server_delete. replace (catch_del (say s e) c) with (say (catch_del s c) e).
    2:{ unfold catch_del, say, find_cid. cbn [cid nds].
        destruct (find (fun i => cid s i =? c) (nds s)); [|reflexivity].
        destruct (around z (nds s)). reflexivity. }
    cbn [say ses]. rewrite F4, K. cbv zeta. unfold say. cbn [nds cid rd wr cur wrk ses asy fly pc bad log fn fs].
    rewrite ?F4, ?F9, <- app_assoc. reflexivity. }
  rewrite X. clear X. cbv zeta.
  rewrite F1, F2, F3, F4, F5, F6, F7, F8, F10, F11.
  assert (SUB : forall i, In i (nds (catch_del s c)) -> In i (nds s) /\ cid s i <> c).
  { destruct (del_chain s c V) as [[E0 E]|(i & a & b & E1 & E2 & E3 & E4 & _)]; intros j J.
    - rewrite E in J. split; [exact J | exact (find_cid_none _ _ _ E0 J)].
    - rewrite E4 in J. pose proof (i_nd _ V) as ND. rewrite E2 in ND. apply NoDup_remove in ND. destruct ND as [ND NI].
      assert (Jin : In j (nds s)) by (rewrite E2, in_app_iff; cbn [In]; rewrite in_app_iff in J; tauto).
      split; [exact Jin|]. intros EC. pose proof (Vs j Jin EC). assert (i = j) by congruence. subst j. contradiction. }
  assert (SUP : forall i, In i (nds s) -> cid s i <> c -> In i (nds (catch_del s c))).
  { destruct (del_chain s c V) as [[E0 E]|(i & a & b & E1 & E2 & E3 & E4 & _)]; intros j J N.
    - rewrite E. exact J.
    - rewrite E4. rewrite E2, in_app_iff in J. cbn [In] in J. destruct J as [J|[J|J]]; rewrite in_app_iff; [tauto| |tauto].
      subst j. destruct (find_cid_some _ _ _ E1). contradiction. }
  assert (CURW : match cur (catch_del s c) with None => nds (catch_del s c) = [] | Some i => In i (nds (catch_del s c)) end).
  { pose proof (i_cur _ V) as CU.
    destruct (del_chain s c V) as [[E0 E]|(i & a & b & E1 & E2 & E3 & E4 & E5 & E6)]; [rewrite E; exact CU|].
    rewrite E5, E4. destruct (cur s) as [x|].
    - destruct (x =? i) eqn:XI.
      + destruct b as [|y b]; [destruct a as [|h a]; [reflexivity | left; reflexivity]|].
        rewrite in_app_iff. right. left. reflexivity.
      + rewrite E2 in CU. rewrite in_app_iff in *. cbn [In] in CU. destruct CU as [CU|[CU|CU]]; [tauto | lia | tauto].
    - rewrite CU in E2. destruct a; discriminate. }
  assert (NI : forall i, In i (nds (catch_del s c)) -> wrk (catch_del s c) <> Some i -> rd s i = []).
  { intros j J N. destruct (SUB j J) as [J1 J2].
    destruct (del_chain s c V) as [[E0 E]|(i & a & b & E1 & E2 & E3 & E4 & E5 & E6)].
    - rewrite E in N. apply (i_oth _ V); assumption.
    - destruct (find_cid_some _ _ _ E1) as [I1 I2].
      apply (i_oth _ V j J1). intro W. rewrite W in E6. destruct (j =? i) eqn:JI; [|congruence].
      replace j with i in J2 by lia. contradiction. }
  constructor; cbn [nds cid rd wr cur wrk ses asy fly pc bad log fn fs].
  - destruct (del_chain s c V) as [[E0 E]|(i & a & b & E1 & E2 & E3 & E4 & _)].
    + rewrite E. apply (i_nd _ V).
    + rewrite E4. pose proof (i_nd _ V) as ND. rewrite E2 in ND. apply NoDup_remove_1 in ND. exact ND.
  - intros i j Hi Hj. apply (i_cid _ V); [apply (SUB i Hi) | apply (SUB j Hj)].
  - intros c1 c2 k0. unfold set. destruct (c1 =? c); [discriminate|]. destruct (c2 =? c); [discriminate|]. apply (i_ses _ V).
  - intros c1 k0. unfold set. destruct (c1 =? c); [discriminate|]. apply (i_fs _ V).
  - intros i Hi. apply (i_fn _ V), (SUB i Hi).
  - intros i Hi. destruct (SUB i Hi) as [J1 J2]. rewrite set_other by exact J2. apply (i_sub _ V), J1.
  - exact CURW.
  - (* work_node *)
    pose proof (i_wrk _ V) as WK.
    destruct (del_chain s c V) as [[E0 E]|(i & a & b & E1 & E2 & E3 & E4 & E5 & E6)]; [rewrite E; exact WK|].
    rewrite E6. destruct (wrk s) as [x|] eqn:W.
    + destruct (x =? i) eqn:XI.
      * destruct (cur (catch_del s c)) as [y|] eqn:CD; [exact CURW|]. rewrite CURW. intros j [].
      * apply SUP; [exact WK|]. intro EC. pose proof (Vs x WK EC). assert (x = i) by congruence. lia.
    + intros j J. apply WK. exact (proj1 (SUB j J)).
  - intros i HP. pose proof (i_pc _ V i HP) as W.
    destruct (del_chain s c V) as [[E0 E]|(j & a & b & E1 & E2 & E3 & E4 & E5 & E6)]; [rewrite E; exact W|].
    rewrite E6, W. destruct (i =? j) eqn:IJ; [|reflexivity].
    replace j with i in * by lia. destruct (find_cid_some _ _ _ E1) as [I1 I2].
    destruct (C i W I2) as [(Q & _) _]. rewrite Q in HP. destruct HP; discriminate.
  - exact NI.
  - destruct (i_job _ V) as [(R1 & R2 & R3 & R4)|(i & B1 & B2 & B3 & B4)].
    + left. repeat split; cbn [nds cid rd wr cur wrk ses asy fly pc bad log fn fs]; try assumption.
      intros i Hi. apply R4, (SUB i Hi).
    + right. exists i. assert (NC : cid s i <> c) by (intro EC; destruct (C i B1 EC) as [_ Q]; contradiction).
      unfold busy. cbn [nds cid rd wr cur wrk ses asy fly pc bad log fn fs].
      split; [|split; [exact B2 | split; [exact B3|]]].
      * destruct (del_chain s c V) as [[E0 E]|(j & a & b & E1 & E2 & E3 & E4 & E5 & E6)]; [rewrite E; exact B1|].
        rewrite E6, B1. destruct (i =? j) eqn:IJ; [|reflexivity].
        replace j with i in * by lia. destruct (find_cid_some _ _ _ E1). contradiction.
      * destruct B4 as [B4|[B4|(B4 & B5 & k0 & B6 & B7)]]; [tauto | tauto|].
        right. right. split; [exact B4 | split; [exact B5|]]. exists k0. split; [exact B6|].
        rewrite set_other by exact NC. exact B7.
  - apply (i_bad _ V).
  - intros c1 k0. unfold set at 1. destruct (c1 =? c) eqn:CC; [discriminate|]. intros K0.
    destruct (i_open _ V _ _ K0) as [O1 O2]. rewrite Hsent, Hgot, Hcl. split.
    + replace (pend _ c1) with (pend (catch_del s c) c1).
      2:{ unfold pend, find_cid. cbn [nds cid rd wr]. rewrite F1, F2, F3. reflexivity. }
      rewrite del_pend_other; [exact O1 | exact V | lia].
    + intros [H|H]; [contradiction|]. subst k0. pose proof (i_ses _ V _ _ _ K K0). lia.
  - intros k0. rewrite Hsent, Hgot. apply (i_pre _ V).
  - intros k0. rewrite Hcl. intros [H|H].
    + destruct (i_just _ V k0 H); [left | right]; apply in_or_app; left; assumption.
    + subst k0. destruct HE as [HE|HE]; subst e; [left | right]; apply in_or_app; right; left; reflexivity.
  - intros k0. rewrite Hsent, Hgot, Hcl. destruct (i_gone _ V k0) as [[c1 H]|[H|H]]; [|tauto|tauto].
    destruct (Z.eq_dec c1 c) as [->|N1]; [right; left; right; congruence|].
    left. exists c1. rewrite set_other; assumption.
  - intros k0 G. rewrite Hsent, Hgot, Hcl. destruct (i_new _ V k0 G) as (G1 & G2 & G3). repeat split; try assumption.
    intros [H|H]; [contradiction|]. subst k0. pose proof (i_fs _ V _ _ K). lia.
Qed.

(** ** adding and pushing *)
Lemma add_chain : forall s c, inv s -> exists a b, nds s = a ++ b /\
  nds (catch_add s c) = a ++ fn s :: b /\ cur (catch_add s c) <> None /\
  (forall x, cur (catch_add s c) = Some x -> In x (a ++ fn s :: b)) /\
  catch_add s c = mk (nds (catch_add s c)) (set (cid s) (fn s) c) (set (rd s) (fn s) []) (set (wr s) (fn s) [])
     (cur (catch_add s c)) (wrk s) (ses s) (asy s) (fly s) (pc s) (bad s) (log s) (fn s + 1) (fs s).
Proof.
  intros s c V. pose proof (i_cur _ V) as CU. unfold catch_add. destruct (cur s) as [x|].
  - destruct (around_ok _ _ CU) as (a & b & E1 & E2 & E3). exists (a ++ [x]), b. cbn [nds cur].
    rewrite E2, put_ok by exact E3. rewrite <- !app_assoc. repeat split; try discriminate.
    intros y H. injection H as <-. rewrite in_app_iff. right. left. reflexivity.
  - exists [], []. cbn [nds cur]. repeat split; [exact CU | discriminate|].
    intros y H. injection H as <-. left. reflexivity.
Qed.

Lemma find_ext : forall (f g : Z -> bool) l, (forall x, In x l -> f x = g x) -> find f l = find g l.
Proof.
  induction l as [|x l IH]; intros H; [reflexivity|]. cbn [find]. rewrite (H x) by (left; reflexivity).
  destruct (g x); [reflexivity|]. apply IH. intros y Y. apply H. right. exact Y.
Qed.

Lemma find_insert : forall (f : Z -> bool) a i b, find f (a ++ b) = None -> f i = true -> find f (a ++ i :: b) = Some i.
Proof.
  induction a as [|x a IH]; intros i b H F; cbn [app find] in *; [rewrite F; reflexivity|].
  destruct (f x); [discriminate|]. apply IH; assumption.
Qed.

Lemma add_inv : forall s c k, inv s -> ses s c = Some k -> find_cid s c = None ->
  inv (catch_add s c) /\ find_cid (catch_add s c) c = Some (fn s).
Proof.
  intros s c k V K F.
  destruct (add_chain s c V) as (a & b & E1 & E2 & E3 & E4 & E5).
  assert (NF : forall i, In i (nds s) -> i <> fn s) by (intros i Hi; pose proof (i_fn _ V i Hi); lia).
  assert (NC : forall i, In i (nds s) -> cid s i <> c) by (intros i Hi; exact (find_cid_none _ _ _ F Hi)).
  assert (IN : forall i, In i (nds (catch_add s c)) <-> i = fn s \/ In i (nds s)).
  { intros i. rewrite E2, E1, !in_app_iff. cbn [In]. intuition congruence. }
  assert (FC : forall c', find_cid (catch_add s c) c' = if c' =? c then Some (fn s) else find_cid s c').
  { intros c'. unfold find_cid. rewrite E5. cbn [nds cid]. rewrite E2, E1. destruct (c' =? c) eqn:CC.
    - replace c' with c by lia. apply find_insert; [|rewrite set_same; lia].
      rewrite <- E1. unfold find_cid in F. rewrite <- F. apply find_ext.
      intros x X. rewrite set_other by (apply NF; exact X). reflexivity.
    - rewrite find_app_other by (rewrite set_same; lia). rewrite <- E1. apply find_ext.
      intros x X. rewrite set_other by (apply NF; exact X). reflexivity. }
  assert (PE : forall c', pend (catch_add s c) c' = pend s c').
  { intros c'. unfold pend. rewrite FC. rewrite E5. cbn [rd wr]. destruct (c' =? c) eqn:CC.
    - replace c' with c by lia. rewrite F, !set_same. reflexivity.
    - destruct (find_cid s c') as [j|] eqn:J; [|reflexivity].
      destruct (find_cid_some _ _ _ J) as [J1 _]. rewrite !set_other by (apply NF; exact J1). reflexivity. }
  split; [|rewrite FC, Z.eqb_refl; reflexivity].
  revert PE. rewrite E5.
  match goal with |- context [mk ?n] => set (n' := n) in * end. intros PE.
  constructor; cbn [nds cid rd wr cur wrk ses asy fly pc bad log fn fs].
  - subst n'. rewrite E2. apply (NoDup_Add (a := fn s) (l := nds s)); [rewrite E1; apply Add_app|].
    split; [apply (i_nd _ V)|]. intro H. exact (NF _ H eq_refl).
  - intros i j Hi Hj. apply IN in Hi. apply IN in Hj. destruct Hi as [->|Hi], Hj as [->|Hj]; [reflexivity | | |].
    + rewrite set_same, set_other by (apply NF; exact Hj). intro EC. exfalso. exact (NC j Hj (eq_sym EC)).
    + rewrite set_same, set_other by (apply NF; exact Hi). intro EC. exfalso. exact (NC i Hi EC).
    + rewrite !set_other by (apply NF; assumption). apply (i_cid _ V); assumption.
  - apply (i_ses _ V).
  - apply (i_fs _ V).
  - intros i Hi. apply IN in Hi. destruct Hi as [->|Hi]; [lia|]. pose proof (i_fn _ V i Hi). lia.
  - intros i Hi. apply IN in Hi. destruct Hi as [->|Hi]; [rewrite set_same; congruence|].
    rewrite set_other by (apply NF; exact Hi). apply (i_sub _ V i Hi).
  - subst n'. destruct (cur (catch_add s c)) as [x|]; [|contradiction]. rewrite E2. apply E4. reflexivity.
  - pose proof (i_wrk _ V) as WK. destruct (wrk s) as [x|].
    + apply IN. right. exact WK.
    + intros i Hi. apply IN in Hi. destruct Hi as [->|Hi]; [rewrite !set_same; split; reflexivity|].
      rewrite !set_other by (apply NF; exact Hi). apply WK. exact Hi.
  - apply (i_pc _ V).
  - intros i Hi N. apply IN in Hi. destruct Hi as [->|Hi]; [apply set_same|].
    rewrite set_other by (apply NF; exact Hi). apply (i_oth _ V i Hi N).
  - destruct (i_job _ V) as [(R1 & R2 & R3 & R4)|(i & B1 & B2 & B3 & B4)].
    + left. split; [exact R1 | split; [exact R2 | split; [exact R3|]]]. cbn [nds rd].
      intros i Hi. apply IN in Hi. destruct Hi as [->|Hi]; [apply set_same|].
      rewrite set_other by (apply NF; exact Hi). apply R4, Hi.
    + right. exists i. pose proof (i_wrk _ V) as WK. rewrite B1 in WK. pose proof (NF i WK) as NI.
      unfold busy. cbn [nds cid rd wr cur wrk ses asy fly pc bad log fn fs].
      rewrite !set_other by exact NI. tauto.
  - apply (i_bad _ V).
  - intros c' k' K'. rewrite PE. apply (i_open _ V c' k' K').
  - apply (i_pre _ V).
  - apply (i_just _ V).
  - apply (i_gone _ V).
  - apply (i_new _ V).
Qed.

Definition push_at (s : st) (i : Z) (b : list Z) : st :=
  mk (nds s) (cid s) (rd s) (set (wr s) i (wr s i ++ b)) (cur s)
     (match wrk s with None => Some i | w => w end)
     (ses s) (asy s) (fly s) (pc s) (bad s) (log s) (fn s) (fs s).

Lemma push_at_inv : forall s c k i b, inv s -> ses s c = Some k -> find_cid s c = Some i ->
  inv (say (push_at s i b) (Sent k b)).
Proof.
  intros s c k i b V K F. destruct (find_cid_some _ _ _ F) as [Hi Hc].
  assert (Hsent : forall j, sent (log s ++ [Sent k b]) j = sent (log s) j ++ (if k =? j then b else []))
    by (intros j; rewrite sent_app, sent_one; reflexivity).
  assert (Hgot : forall j, got (log s ++ [Sent k b]) j = got (log s) j)
    by (intros j; rewrite got_app; cbn; apply app_nil_r).
  assert (Hcl : forall j, In (Closed j) (log s ++ [Sent k b]) <-> In (Closed j) (log s)).
  { intros j. rewrite in_app_iff. cbn. split; [intros [H|[H|[]]]; [exact H | discriminate] | tauto]. }
  constructor; cbn [say push_at nds cid rd wr cur wrk ses asy fly pc bad log fn fs].
  - apply (i_nd _ V).
  - apply (i_cid _ V).
  - apply (i_ses _ V).
  - apply (i_fs _ V).
  - apply (i_fn _ V).
  - apply (i_sub _ V).
  - apply (i_cur _ V).
  - pose proof (i_wrk _ V) as WK. destruct (wrk s); assumption.
  - intros j H. rewrite (i_pc _ V j H). reflexivity.
  - intros j Hj N. pose proof (i_wrk _ V) as WK. destruct (wrk s) as [w|] eqn:W.
    + apply (i_oth _ V j Hj). rewrite W. exact N.
    + apply WK. exact Hj.
  - destruct (i_job _ V) as [R|(j & B1 & B2 & B3 & B4)]; [left; exact R|].
    right. exists j. unfold busy. cbn [say push_at nds cid rd wr cur wrk ses asy fly pc bad log fn fs].
    rewrite B1. tauto.
  - apply (i_bad _ V).
  - intros c' k' K'. destruct (i_open _ V c' k' K') as [O1 O2]. rewrite Hsent, Hgot, Hcl. split; [|exact O2].
    rewrite <- O1, <- app_assoc. f_equal. unfold pend, find_cid. cbn [say push_at nds cid rd wr].
    change (find (fun i0 => cid s i0 =? c') (nds s)) with (find_cid s c').
    destruct (k =? k') eqn:KK.
    + assert (c' = c) by (apply (i_ses _ V c' c k'); [exact K' | replace k' with k by lia; exact K]). subst c'.
      rewrite F, set_same, <- app_assoc. reflexivity.
    + rewrite app_nil_r. destruct (find_cid s c') as [j|] eqn:J; [|reflexivity].
      rewrite set_other; [reflexivity|]. intro X. subst j. destruct (find_cid_some _ _ _ J) as [_ J2].
      assert (c = c') by lia. assert (Some k = Some k') by congruence. assert (k = k') by congruence. lia.
  - intros j. rewrite Hsent, Hgot. destruct (i_pre _ V j) as [r Hr]. rewrite Hr, <- app_assoc. eexists. reflexivity.
  - intros j. rewrite Hcl. intros H. destruct (i_just _ V j H); [left | right]; apply in_or_app; left; assumption.
  - intros j. rewrite Hsent, Hgot, Hcl. destruct (i_gone _ V j) as [H|[H|[H1 H2]]]; [left; exact H | right; left; exact H|].
    destruct (k =? j) eqn:KJ; [left; exists c; rewrite K; f_equal; lia|].
    right. right. rewrite H1, H2. split; reflexivity.
  - intros j G. rewrite Hsent, Hgot, Hcl. destruct (i_new _ V j G) as (G1 & G2 & G3). rewrite G1, G2.
    pose proof (i_fs _ V _ _ K). destruct (k =? j) eqn:KJ; [lia | repeat split; exact G3].
Qed.

Lemma push_inv : forall s c k b, inv s -> ses s c = Some k -> inv (say (catch_push s c b) (Sent k b)).
Proof.
  intros s c k b V K. unfold catch_push. destruct (find_cid s c) as [i|] eqn:F.
  - apply (push_at_inv s c k i b V K F).
  - destruct (add_inv s c k V K F) as [V' F'].
    assert (K' : ses (catch_add s c) c = Some k).
    { destruct (add_chain s c V) as (_ & _ & _ & _ & _ & _ & E5). rewrite E5. exact K. }
    apply (push_at_inv (catch_add s c) c k (fn s) b V' K' F').
Qed.

Lemma connect_inv : forall s c, inv s -> ses s c = None ->
  inv (mk (nds s) (cid s) (rd s) (wr s) (cur s) (wrk s) (set (ses s) c (Some (fs s))) (asy s)
          (fly s) (pc s) (bad s) (log s) (fn s) (fs s + 1)).
Proof.
  intros s c V N.
  assert (FR : forall c', ses s c' <> Some (fs s)) by (intros c' H; pose proof (i_fs _ V _ _ H); lia).
  constructor; cbn [nds cid rd wr cur wrk ses asy fly pc bad log fn fs]; try apply V.
  - intros c1 c2 k. unfold set. destruct (c1 =? c) eqn:C1, (c2 =? c) eqn:C2; intros H1 H2.
    + lia.
    + injection H1 as <-. exfalso. exact (FR _ H2).
    + injection H2 as <-. exfalso. exact (FR _ H1).
    + apply (i_ses _ V _ _ _ H1 H2).
  - intros c1 k. unfold set. destruct (c1 =? c); intros H; [injection H; lia|]. pose proof (i_fs _ V _ _ H). lia.
  - intros i Hi. unfold set. destruct (cid s i =? c); [discriminate | apply (i_sub _ V i Hi)].
  - destruct (i_job _ V) as [R|(j & B1 & B2 & B3 & B4)]; [left; exact R|].
    right. exists j. unfold busy. cbn [nds cid rd wr cur wrk ses asy fly pc bad log fn fs].
    split; [exact B1 | split; [exact B2 | split; [exact B3|]]].
    destruct B4 as [B4|[B4|(B4 & B5 & k0 & B6 & B7)]]; [tauto | tauto|].
    right. right. split; [exact B4 | split; [exact B5|]]. exists k0. split; [exact B6|].
    rewrite set_other; [exact B7 | congruence].
  - intros c1 k. unfold set at 1. destruct (c1 =? c) eqn:C1; intros H.
    + injection H as <-. destruct (i_new _ V (fs s) ltac:(lia)) as (G1 & G2 & G3).
      rewrite G1, G2. split; [|exact G3]. unfold pend, find_cid. cbn [nds cid rd wr].
      destruct (find (fun i => cid s i =? c1) (nds s)) as [i|] eqn:F; [|reflexivity].
      apply find_some in F. destruct F as [F1 F2]. exfalso. apply (i_sub _ V i F1).
      replace (cid s i) with c by lia. exact N.
    + apply (i_open _ V c1 k H).
  - intros k. destruct (i_gone _ V k) as [[c1 H]|[H|H]]; [|tauto|tauto].
    left. exists c1. rewrite set_other; [exact H | congruence].
  - intros k G. apply (i_new _ V). lia.
Qed.

(** ** the reader thread *)
Lemma rounds_in : forall i l x, In i l -> (In x (rounds i l) <-> In x l).
Proof.
  intros i l x H. destruct (around_ok _ _ H) as (a & b & E1 & E2 & E3). unfold rounds. rewrite E1, E2, !in_app_iff.
  cbn [In]. tauto.
Qed.

Lemma has_data_no : forall s i, has_data s i = false <-> rd s i = [] /\ wr s i = [].
Proof.
  intros s i. unfold has_data. destruct (rd s i), (wr s i); split; try discriminate; try tauto; intros [H1 H2]; discriminate.
Qed.

Lemma scan_inv : forall s i, inv s -> pc s = RLock i -> inv (reader_scan s i).
Proof.
  intros s i V P. pose proof (i_pc _ V i (or_intror P)) as W.
  pose proof (i_wrk _ V) as WK. rewrite W in WK.
  assert (R : rest s).
  { destruct (i_job _ V) as [R|(j & B1 & B2 & B3 & B4)]; [exact R | exfalso; exact (B3 i P)]. }
  destruct R as (R1 & R2 & R3 & R4).
  unfold reader_scan. destruct (find (has_data s) (rounds i (nds s))) as [j|] eqn:F.
  - apply find_some in F. destruct F as [F1 F2]. apply rounds_in in F1; [|exact WK].
    unfold take. rewrite (R4 j F1).
    assert (WJ : wr s j <> []).
    { intro E. assert (has_data s j = false) by (apply has_data_no; split; [exact (R4 j F1) | exact E]). congruence. }
    assert (PE : forall c,
      pend (mk (nds s) (cid s) (set (rd s) j (wr s j)) (set (wr s) j []) (cur s) (Some j) (ses s) (asy s) (fly s)
               RCall (bad s) (log s) (fn s) (fs s)) c = pend s c).
    { intros c. unfold pend, find_cid. cbn [nds cid rd wr].
      destruct (find (fun i0 => cid s i0 =? c) (nds s)) as [y|]; [|reflexivity].
      destruct (Z.eq_dec y j) as [->|N]; [rewrite !set_same, (R4 j F1), app_nil_r; reflexivity|].
      rewrite !set_other by exact N. reflexivity. }
    unfold go, set_wrk. cbn [nds cid rd wr cur wrk ses asy fly pc bad log fn fs].
    constructor; cbn [nds cid rd wr cur wrk ses asy fly pc bad log fn fs]; try apply V.
    + exact F1.
    + intros y [H|H]; discriminate.
    + intros y Hy N. rewrite set_other; [apply R4; exact Hy | congruence].
    + right. exists j. unfold busy. cbn [nds cid rd wr cur wrk ses asy fly pc bad log fn fs].
      split; [reflexivity | split; [rewrite set_same; exact WJ | split; [discriminate|]]].
      right. left. split; [exact R1 | split; [exact R2 | reflexivity]].
    + intros c k K. rewrite PE. apply (i_open _ V c k K).
  - pose proof (find_none _ _ F) as FN.
    unfold go, set_wrk. cbn [nds cid rd wr cur wrk ses asy fly pc bad log fn fs].
    constructor; cbn [nds cid rd wr cur wrk ses asy fly pc bad log fn fs]; try apply V.
    + intros y Hy. apply has_data_no, FN, rounds_in; assumption.
    + intros y [H|H]; discriminate.
    + intros y Hy _. apply R4, Hy.
    + left. split; [exact R1 | split; [exact R2 | split; [discriminate | exact R4]]].
Qed.

Lemma reader_inv : forall s, inv s -> inv (reader s).
Proof.
  intros s V. pose proof (i_wrk _ V) as WK. pose proof (i_job _ V) as J. unfold reader.
  destruct (pc s) as [|i|i|] eqn:P.
  - destruct (wrk s) as [i|] eqn:W; [|exact V].
    constructor; cbn [go nds cid rd wr cur wrk ses asy fly pc bad log fn fs]; try apply V.
    + intros y [H|H]; [injection H as <-; exact W | discriminate].
    + destruct J as [(R1 & R2 & R3 & R4)|(j & B1 & B2 & B3 & B4)].
      * left. split; [exact R1 | split; [exact R2 | split; [discriminate | exact R4]]].
      * right. exists j. unfold busy. cbn [go nds cid rd wr cur wrk ses asy fly pc bad log fn fs].
        split; [exact B1 | split; [exact B2 | split; [discriminate|]]].
        destruct B4 as [(B4 & B5 & B6)|[(B4 & B5 & B6)|(B4 & B5 & B6)]]; [left | congruence | right; right].
        -- split; [exact B4 | split; [exact B5 | discriminate]].
        -- split; [exact B4 | split; [discriminate | exact B6]].
  - pose proof (i_pc _ V i (or_introl P)) as W. rewrite W in WK.
    replace (here i (nds s)) with true by (symmetry; apply here_in; exact WK).
    destruct (rd s i) as [|x r] eqn:R.
    + constructor; cbn [go nds cid rd wr cur wrk ses asy fly pc bad log fn fs]; try apply V.
      * intros y [H|H]; [discriminate | injection H as <-; exact W].
      * destruct J as [(R1 & R2 & R3 & R4)|(j & B1 & B2 & B3 & B4)].
        -- left. split; [exact R1 | split; [exact R2 | split; [discriminate | exact R4]]].
        -- rewrite W in B1. injection B1 as <-. contradiction.
    + constructor; cbn [go nds cid rd wr cur wrk ses asy fly pc bad log fn fs]; try apply V.
      * intros y [H|H]; discriminate.
      * destruct J as [(R1 & R2 & R3 & R4)|(j & B1 & B2 & B3 & B4)].
        -- left. split; [exact R1 | split; [exact R2 | split; [discriminate | exact R4]]].
        -- right. exists j. unfold busy. cbn [go nds cid rd wr cur wrk ses asy fly pc bad log fn fs].
           split; [exact B1 | split; [exact B2 | split; [discriminate|]]].
           destruct B4 as [(B4 & B5 & B6)|[(B4 & B5 & B6)|(B4 & B5 & B6)]]; [left | congruence | right; right].
           ++ split; [exact B4 | split; [exact B5 | discriminate]].
           ++ split; [exact B4 | split; [discriminate | exact B6]].
  - pose proof (i_pc _ V i (or_intror P)) as W. rewrite W in WK.
    replace (here i (nds s)) with true by (symmetry; apply here_in; exact WK).
    apply scan_inv; assumption.
  - destruct J as [(R1 & R2 & R3 & R4)|(j & B1 & B2 & B3 & B4)]; [congruence|]. rewrite B1 in WK |- *.
    constructor; cbn [nds cid rd wr cur wrk ses asy fly pc bad log fn fs]; try apply V.
    + exact WK.
    + intros y [H|H]; discriminate.
    + intros y Hy N. apply (i_oth _ V y Hy). congruence.
    + right. exists j. unfold busy. cbn [nds cid rd wr cur wrk ses asy fly pc bad log fn fs].
      split; [reflexivity | split; [exact B2 | split; [discriminate|]]].
      left. split; [reflexivity | split; [|discriminate]].
      destruct B4 as [(B4 & B5 & B6)|[(B4 & B5 & B6)|(B4 & B5 & B6)]]; [exact B5 | exact B5 | congruence].
Qed.

(** ** the loop *)
Lemma busy_async : forall s i, busy s i -> asy s = true -> fly s = [] /\ pc s <> RCall.
Proof. intros s i (B1 & B2 & B3 & [B|[B|B]]) A; [tauto | destruct B; congruence | destruct B; congruence]. Qed.

Lemma drop_inv : forall s i k, inv s -> busy s i -> pc s = RLook -> ses s (cid s i) = Some k ->
  inv (server_delete (say (mk (nds s) (cid s) (rd s) (wr s) (cur s) (wrk s) (ses s) false [] (pc s) (bad s)
                              (log s) (fn s) (fs s)) (Failed k)) (cid s i)).
Proof.
  intros s i k V (B1 & B2 & B3 & B4) PL K.
  assert (NP : pc s <> RCall) by congruence.
  pose proof (i_wrk _ V) as WK. rewrite B1 in WK. rewrite B1.
  (* as if the bytes had been taken back first *)
  set (s1 := mk (nds s) (cid s) (set (rd s) i []) (set (wr s) i (rd s i ++ wr s i)) (cur s) (Some i) (ses s) false []
                (pc s) (bad s) (log s) (fn s) (fs s)).
  assert (V1 : inv s1).
  { assert (PE : forall c, pend s1 c = pend s c).
    { intros c. unfold pend, find_cid. cbn [s1 nds cid rd wr].
      destruct (find (fun i0 => cid s i0 =? c) (nds s)) as [y|]; [|reflexivity].
      destruct (Z.eq_dec y i) as [->|N]; [rewrite !set_same; reflexivity|].
      rewrite !set_other by exact N. reflexivity. }
    constructor; cbn [s1 nds cid rd wr cur wrk ses asy fly pc bad log fn fs]; try apply V.
    - exact WK.
    - intros y H. rewrite <- B1. apply (i_pc _ V y H).
    - intros y Hy N. rewrite set_other by congruence. apply (i_oth _ V y Hy). congruence.
    - left. split; [reflexivity | split; [reflexivity | split; [exact NP|]]]. cbn [s1 nds rd].
      intros y Hy. destruct (Z.eq_dec y i) as [->|N]; [apply set_same|]. rewrite set_other by exact N.
      apply (i_oth _ V y Hy). congruence.
    - intros c k' K'. fold s1. rewrite PE. apply (i_open _ V c k' K'). }
  assert (C1 : clean_del s1 (cid s i)).
  { intros y H1 H2. cbn [s1 wrk] in H1. injection H1 as <-. split; [|apply set_same].
    split; [exact PL | split; [reflexivity | reflexivity]]. }
  pose proof (delete_inv s1 (cid s i) (Failed k) k V1 C1 K (or_intror eq_refl)) as D.
  assert (X : forall j, In j (nds (server_delete (say s1 (Failed k)) (cid s i))) -> j <> i).
  { assert (SE : ses (server_delete (say s1 (Failed k)) (cid s i)) (cid s i) = None).
    { unfold server_delete. pose proof (del_fields (say s1 (Failed k)) (cid s i)) as (_ & _ & _ & F4 & _). cbv zeta in F4.
      rewrite F4. cbn [say s1 ses]. rewrite K. cbn [say ses]. apply set_same. }
    intros j Hj ->. apply (i_sub _ D i Hj).
    replace (cid (server_delete (say s1 (Failed k)) (cid s i)) i) with (cid s i); [exact SE|].
    unfold server_delete. pose proof (del_fields (say s1 (Failed k)) (cid s i)) as (F1 & _ & _ & F4 & _). cbv zeta in *.
    rewrite F4. cbn [say s1 ses]. rewrite K. cbn [say cid]. rewrite F1. reflexivity. }
  revert D X. unfold server_delete, say, catch_del, find_cid. cbn [s1 nds cid rd wr cur wrk ses asy fly pc bad log fn fs].
  fold (find_cid s (cid s i)). rewrite (pend_id _ _ V WK).
  destruct (around i (nds s)) as [a b] eqn:AR. cbn [nds cid rd wr cur wrk ses asy fly pc bad log fn fs].
  rewrite K. cbn [nds cid rd wr cur wrk ses asy fly pc bad log fn fs]. intros D X.
  constructor; cbn [nds cid rd wr cur wrk ses asy fly pc bad log fn fs]; try apply D.
  + pose proof (i_wrk _ D) as WD. cbn [nds wrk rd wr] in WD.
    destruct (if i =? i then _ else _); [exact WD|]. intros y Hy. specialize (WD y Hy).
    rewrite !set_other in WD by (apply X; exact Hy). exact WD.
  + intros y Hy N. pose proof (i_oth _ D y Hy N) as O. cbn [rd] in O. rewrite set_other in O by (apply X; exact Hy). exact O.
  + left. split; [reflexivity | split; [reflexivity | split; [exact NP|]]]. cbn [nds rd]. intros y Hy.
    destruct (i_job _ D) as [(_ & _ & _ & R4)|(j & _ & _ & _ & [(Q & _)|[(_ & _ & Q)|(_ & _ & j' & Q & _)]])];
      cbn [nds asy fly pc rd] in *; [|discriminate | contradiction | congruence].
    specialize (R4 y Hy). rewrite set_other in R4 by (apply X; exact Hy). exact R4.
  + intros c k' K'. pose proof (i_open _ D c k' K') as O. cbn [log] in O.
    assert (PE : forall q : st, nds q = a ++ b -> cid q = cid s ->
        rd q = set (rd s) i [] -> wr q = set (wr s) i (rd s i ++ wr s i) ->
        pend q c = match find (fun i0 => cid s i0 =? c) (a ++ b) with Some j => rd s j ++ wr s j | None => [] end).
    { intros q Q1 Q2 Q3 Q4. unfold pend, find_cid. rewrite Q1, Q2, Q3, Q4.
      destruct (find (fun i0 => cid s i0 =? c) (a ++ b)) as [j|] eqn:FJ; [|reflexivity].
      apply find_some in FJ. destruct FJ as [FJ _]. rewrite !set_other by (apply X; exact FJ). reflexivity. }
    rewrite PE in O by reflexivity. exact O.
Qed.

Lemma async_inv : forall s ok, inv s -> asy s = true -> calm (AAsync ok) s -> inv (async_write s ok).
Proof.
  intros s ok V A C. destruct (i_job _ V) as [(R1 & _)|(i & B)]; [congruence|].
  destruct (busy_async _ _ B A) as [FL NP]. destruct B as (B1 & B2 & B3 & B4).
  pose proof (i_wrk _ V) as WK. rewrite B1 in WK.
  destruct (ses s (cid s i)) as [k|] eqn:K; [|exfalso; exact (i_sub _ V i WK K)].
  destruct (rd s i) as [|x r] eqn:R; [contradiction|].
  unfold async_write. cbn [nds cid rd wr cur wrk ses asy fly pc bad log fn fs]. rewrite B1, K, R.
  destruct ok.
  - constructor; cbn [nds cid rd wr cur wrk ses asy fly pc bad log fn fs]; try apply V.
    + exact WK.
    + intros y H. rewrite <- B1. apply (i_pc _ V y H).
    + intros y Hy N. apply (i_oth _ V y Hy). congruence.
    + right. exists i. unfold busy. cbn [nds cid rd wr cur wrk ses asy fly pc bad log fn fs].
      split; [reflexivity | split; [rewrite R; discriminate | split; [exact B3|]]].
      right. right. split; [reflexivity | split; [exact NP|]]. exists k. rewrite FL, R. split; [reflexivity | exact K].
  - rewrite FL, <- B1. apply (drop_inv s i k V); [|exact C | exact K].
    split; [exact B1 | split; [congruence | split; [exact B3 | left; split; [exact A | split; [exact FL | exact NP]]]]].
Qed.

Lemma landing_job : forall s k b t, inv s -> landing k (fly s) = Some (b, t) ->
  exists i, busy s i /\ fly s = [(k, i, rd s i)] /\ b = rd s i /\ t = [] /\ ses s (cid s i) = Some k /\
    asy s = false /\ pc s <> RCall /\ In i (nds s).
Proof.
  intros s k b t V L. destruct (i_job _ V) as [(_ & R2 & _)|(i & B)]; [rewrite R2 in L; discriminate|].
  pose proof B as (B1 & B2 & B3 & B4). pose proof (i_wrk _ V) as WK. rewrite B1 in WK.
  destruct B4 as [(_ & F & _)|[(_ & F & _)|(A & P & k' & F & K)]]; [rewrite F in L; discriminate | rewrite F in L; discriminate|].
  rewrite F in L. cbn [landing] in L. destruct (k' =? k) eqn:E; [|discriminate]. injection L as L1 L2.
  replace k' with k in * by lia. exists i. repeat split; auto; try apply B. 
Qed.

Lemma done_inv : forall s k ok b t, inv s -> landing k (fly s) = Some (b, t) -> calm (ADone k ok) s ->
  inv (write_after (say (mk (nds s) (cid s) (rd s) (wr s) (cur s) (wrk s) (ses s) (asy s) t (pc s) (bad s)
                      (log s) (fn s) (fs s)) (if ok then Got k b else Failed k)) k ok).
Proof.
  intros s k ok b t V L C.
  destruct (landing_job _ _ _ _ V L) as (i & B & F & -> & -> & K & A & NP & WK).
  pose proof B as (B1 & B2 & B3 & B4).
  unfold write_after. cbn [say nds cid rd wr cur wrk ses asy fly pc bad log fn fs]. rewrite B1, K.
  destruct ok.
  - unfold catch_stop. cbn [say nds cid rd wr cur wrk ses asy fly pc bad log fn fs].
    assert (Hsent : forall j, sent (log s ++ [Got k (rd s i)]) j = sent (log s) j)
      by (intros j; rewrite sent_app; cbn; apply app_nil_r).
    assert (Hgot : forall j, got (log s ++ [Got k (rd s i)]) j = got (log s) j ++ (if k =? j then rd s i else []))
      by (intros j; rewrite got_app, got_one; reflexivity).
    assert (Hcl : forall j, In (Closed j) (log s ++ [Got k (rd s i)]) <-> In (Closed j) (log s)).
    { intros j. rewrite in_app_iff. cbn. split; [intros [H|[H|[]]]; [exact H | discriminate] | tauto]. }
    pose proof (pend_id _ _ V WK) as FI.
    assert (PK : got (log s) k ++ rd s i ++ wr s i = sent (log s) k).
    { destruct (i_open _ V _ _ K) as [O _]. unfold pend in O. rewrite FI in O. exact O. }
    constructor; cbn [nds cid rd wr cur wrk ses asy fly pc bad log fn fs]; try apply V.
    + exact WK.
    + intros y H. rewrite <- B1. apply (i_pc _ V y H).
    + intros y Hy N. rewrite set_other by congruence. apply (i_oth _ V y Hy). congruence.
    + left. split; [exact A | split; [reflexivity | split; [exact NP|]]]. cbn [nds rd].
      intros y Hy. destruct (Z.eq_dec y i) as [->|N]; [apply set_same|]. rewrite set_other by exact N.
      apply (i_oth _ V y Hy). congruence.
    + intros c k' K'. destruct (i_open _ V _ _ K') as [O1 O2]. rewrite Hsent, Hgot, Hcl. split; [|exact O2].
      rewrite <- app_assoc. etransitivity; [|exact O1]. f_equal.
      unfold pend, find_cid. cbn [nds cid rd wr]. fold (find_cid s c).
      destruct (k =? k') eqn:KK.
      * assert (c = cid s i) by (apply (i_ses _ V c (cid s i) k'); [exact K' | replace k' with k by lia; exact K]).
        subst c. rewrite FI, set_same. reflexivity.
      * cbn [app]. destruct (find_cid s c) as [j|] eqn:J; [|reflexivity].
        rewrite set_other; [reflexivity|]. intro X. subst j. destruct (find_cid_some _ _ _ J) as [_ J2].
        assert (Some k = Some k') by congruence. assert (k = k') by congruence. lia.
    + intros j. rewrite Hsent, Hgot. destruct (k =? j) eqn:KJ; [|rewrite app_nil_r; apply (i_pre _ V)].
      replace j with k by lia. exists (wr s i). rewrite <- app_assoc. symmetry. exact PK.
    + intros j. rewrite Hcl. intros H. destruct (i_just _ V j H); [left | right]; apply in_or_app; left; assumption.
    + intros j. rewrite Hsent, Hgot, Hcl. destruct (i_gone _ V j) as [H|[H|[H1 H2]]]; [left; exact H | right; left; exact H|].
      destruct (k =? j) eqn:KJ; [left; exists (cid s i); rewrite K; f_equal; lia|].
      right. right. rewrite H1, H2. split; reflexivity.
    + intros j G. rewrite Hsent, Hgot, Hcl. destruct (i_new _ V j G) as (G1 & G2 & G3). rewrite G1, G2.
      pose proof (i_fs _ V _ _ K). destruct (k =? j) eqn:KJ; [lia | repeat split; exact G3].
  - pose proof (drop_inv s i k V B C K) as D. rewrite A. rewrite B1 in D. exact D.
Qed.

Lemma end_inv : forall s c, inv s -> calm (AEnd c) s -> forall k, ses s c = Some k -> inv (server_delete (say s (Asked k)) c).
Proof.
  intros s c V C k K. apply (delete_inv s c (Asked k) k V); [|exact K | left; reflexivity].
  intros i W E. pose proof (C i W E) as Q. split; [exact Q|]. destruct Q as (Q1 & Q2 & Q3).
  destruct (i_job _ V) as [(_ & _ & _ & R4)|(j & _ & _ & _ & [(Q & _)|[(_ & _ & Q)|(_ & _ & k' & Q & _)]])]; try congruence.
  apply R4. pose proof (i_wrk _ V) as WK. rewrite W in WK. exact WK.
Qed.

Lemma end_none : forall s c, inv s -> ses s c = None -> server_delete s c = s.
Proof.
  intros s c V K. unfold server_delete, catch_del. destruct (find_cid s c) as [i|] eqn:F; [|rewrite K; reflexivity].
  destruct (find_cid_some _ _ _ F) as [F1 F2]. exfalso. apply (i_sub _ V i F1). rewrite F2. exact K.
Qed.

Lemma step_inv : forall a s s', inv s -> calm a s -> step a s = Some s' -> inv s'.
Proof.
  intros a s s' V C H. destruct a as [c|c b|c| |ok|k ok]; cbn [step] in H.
  - destruct (ses s c) eqn:K; [discriminate|]. injection H as <-. apply connect_inv; assumption.
  - destruct (ses s c) as [k|] eqn:K; injection H as <-; [apply push_inv; assumption | exact V].
  - destruct (ses s c) as [k|] eqn:K; injection H as <-; [apply end_inv; assumption | rewrite end_none; assumption].
  - injection H as <-. apply reader_inv, V.
  - destruct (asy s) eqn:A; [|discriminate]. injection H as <-. apply async_inv; assumption.
  - destruct (landing k (fly s)) as [[b t]|] eqn:L; [|discriminate]. injection H as <-. apply done_inv; assumption.
Qed.

Lemma run_inv : forall acts s s', inv s -> calm_run acts s -> run acts s = Some s' -> inv s'.
Proof.
  induction acts as [|a t IH]; intros s s' V C R; cbn [run calm_run] in *; [injection R as <-; exact V|].
  destruct C as [C1 C2]. destruct (step a s) as [s1|] eqn:E; [|discriminate].
  apply (IH s1 s'); [exact (step_inv a s s1 V C1 E) | exact C2 | exact R].
Qed.

(** ** progress *)
Definition own (a : act) : Prop :=
  match a with AReader => True | AAsync true => True | ADone _ true => True | _ => False end.

Lemma own_calm : forall acts s, Forall own acts -> calm_run acts s.
Proof.
  induction acts as [|a t IH]; intros s F; [exact Logic.I|]. inversion F as [|? ? F1 F2]; subst. cbn [calm_run]. split.
  - destruct a as [c|c b|c| |[|]|k [|]]; cbn in *; try exact Logic.I; contradiction.
  - destruct (step a s); [apply IH; exact F2 | exact Logic.I].
Qed.

Lemma calm_app : forall a b s s', calm_run a s -> run a s = Some s' -> calm_run b s' -> calm_run (a ++ b) s.
Proof.
  induction a as [|x a IH]; intros b s s' C R D; cbn [app calm_run run] in *; [injection R as <-; exact D|].
  destruct C as [C1 C2]. split; [exact C1|]. destruct (step x s) as [s1|] eqn:E; [|discriminate].
  apply (IH b s1 s'); assumption.
Qed.

Lemma finish : forall s i, inv s -> busy s i -> exists acts s', Forall own acts /\ run acts s = Some s' /\ inv s' /\
  rest s' /\ pc s' = (match pc s with RCall => RLook | p => p end) /\ wr s' = wr s /\ nds s' = nds s.
Proof.
  (* the write in flight *)
  assert (F1 : forall s i k, inv s -> busy s i -> fly s = [(k, i, rd s i)] -> exists s',
            run [ADone k true] s = Some s' /\ inv s' /\ rest s' /\ pc s' = pc s /\ wr s' = wr s /\ nds s' = nds s).
  { intros s i k V B F. cbn [run step]. rewrite F. cbn [landing]. rewrite Z.eqb_refl.
    assert (L : landing k (fly s) = Some (rd s i, [])) by (rewrite F; cbn [landing]; rewrite Z.eqb_refl; reflexivity).
    pose proof (done_inv s k true _ _ V L Logic.I) as D.
    destruct (landing_job _ _ _ _ V L) as (i' & (B1 & _) & F' & _ & _ & K & A & NP & WK).
    assert (i' = i) by congruence. subst i'.
    eexists. split; [reflexivity|]. split; [exact D|]. 
    revert D. unfold write_after, catch_stop. cbn [say nds cid rd wr cur wrk ses asy fly pc bad log fn fs].
    rewrite B1, K. cbn [say nds cid rd wr cur wrk ses asy fly pc bad log fn fs]. intros D.
    split; [|repeat split; reflexivity].
    split; [exact A | split; [reflexivity | split; [exact NP|]]]. cbn [nds rd]. intros y Hy.
    destruct (Z.eq_dec y i) as [->|N]; [apply set_same|]. rewrite set_other by exact N.
    apply (i_oth _ V y Hy). congruence. }
  (* the callback to come *)
  assert (F2 : forall s i, inv s -> busy s i -> asy s = true -> exists acts s', Forall own acts /\
            run acts s = Some s' /\ inv s' /\ rest s' /\ pc s' = pc s /\ wr s' = wr s /\ nds s' = nds s).
  { intros s i V B A. destruct (busy_async _ _ B A) as [FL NP].
    pose proof (async_inv s true V A Logic.I) as D.
    pose proof B as (B1 & B2 & B3 & _). pose proof (i_wrk _ V) as WK. rewrite B1 in WK.
    destruct (ses s (cid s i)) as [k|] eqn:K; [|exfalso; exact (i_sub _ V i WK K)].
    set (s1 := async_write s true) in *.
    assert (E1 : s1 = mk (nds s) (cid s) (rd s) (wr s) (cur s) (wrk s) (ses s) false [(k, i, rd s i)] (pc s) (bad s)
                         (log s) (fn s) (fs s)).
    { unfold s1, async_write. cbn [nds cid rd wr cur wrk ses asy fly pc bad log fn fs]. rewrite B1, K, FL.
      destruct (rd s i); [contradiction | reflexivity]. }
    assert (B' : busy s1 i).
    { rewrite E1. unfold busy. cbn [nds cid rd wr cur wrk ses asy fly pc bad log fn fs].
      split; [exact B1 | split; [exact B2 | split; [exact B3|]]]. right. right.
      split; [reflexivity | split; [exact NP|]]. exists k. split; [reflexivity | exact K]. }
    destruct (F1 s1 i k D B') as (s2 & R & V2 & R2 & P2 & W2 & N2); [rewrite E1; reflexivity|].
    exists [AAsync true; ADone k true], s2. split; [repeat constructor|].
    split; [cbn [run step] in *; rewrite A; fold s1; exact R|].
    split; [exact V2 | split; [exact R2|]]. rewrite P2, W2, N2, E1. repeat split; reflexivity. }
  intros s i V B. pose proof B as (B1 & B2 & B3 & [(A & FL & NP)|[(A & FL & P)|(A & NP & k & FL & K)]]).
  - destruct (F2 s i V B A) as (acts & s' & Q1 & Q2 & Q3 & Q4 & Q5 & Q6 & Q7).
    exists acts, s'. split; [exact Q1|]. split; [exact Q2 | split; [exact Q3 | split; [exact Q4 | split; [rewrite Q5; destruct (pc s); try reflexivity; contradiction | split; assumption]]]].
  - set (s1 := reader s).
    assert (E1 : s1 = mk (nds s) (cid s) (rd s) (wr s) (cur s) (wrk s) (ses s) true (fly s) RLook (bad s) (log s) (fn s) (fs s)).
    { unfold s1, reader. rewrite P, B1. reflexivity. }
    pose proof (reader_inv s V) as V1. fold s1 in V1.
    assert (B' : busy s1 i).
    { rewrite E1. unfold busy. cbn [nds cid rd wr cur wrk ses asy fly pc bad log fn fs].
      split; [exact B1 | split; [exact B2 | split; [discriminate|]]]. left.
      split; [reflexivity | split; [exact FL | discriminate]]. }
    destruct (F2 s1 i V1 B') as (acts & s' & Q1 & Q2 & Q3 & Q4 & Q5 & Q6 & Q7); [rewrite E1; reflexivity|].
    exists (AReader :: acts), s'. split; [constructor; [exact Logic.I | exact Q1]|].
    split; [cbn [run step]; fold s1; exact Q2|]. split; [exact Q3 | split; [exact Q4|]].
    rewrite Q5, Q6, Q7, E1, P. repeat split; reflexivity.
  - destruct (F1 s i k V B FL) as (s' & Q2 & Q3 & Q4 & Q5 & Q6 & Q7).
    exists [ADone k true], s'. split; [repeat constructor|].
    split; [exact Q2 | split; [exact Q3 | split; [exact Q4 | split; [rewrite Q5; destruct (pc s); try reflexivity; contradiction | split; assumption]]]].
Qed.

(** slots with bytes waiting *)
Definition waiting (s : st) : nat :=
  List.length (filter (fun i => match wr s i with [] => false | _ => true end) (nds s)).

Lemma lock_scan : forall s i, inv s -> pc s = RLock i -> exists acts s', Forall own acts /\ run acts s = Some s' /\
  inv s' /\ rest s' /\ pc s' = RLook /\ (waiting s' <= waiting s)%nat /\ (waiting s <> 0%nat -> (waiting s' < waiting s)%nat).
Proof.
  intros s i V P. pose proof (i_pc _ V i (or_intror P)) as W. pose proof (i_wrk _ V) as WK. rewrite W in WK.
  assert (R : rest s).
  { destruct (i_job _ V) as [R|(j & B1 & B2 & B3 & B4)]; [exact R | exfalso; exact (B3 i P)]. }
  pose proof R as (R1 & R2 & R3 & R4).
  pose proof (scan_inv s i V P) as V1.
  assert (ST : step AReader s = Some (reader_scan s i)).
  { cbn [step]. unfold reader. rewrite P. replace (here i (nds s)) with true by (symmetry; apply here_in; exact WK). reflexivity. }
  unfold reader_scan in *. destruct (find (has_data s) (rounds i (nds s))) as [j|] eqn:F.
  - apply find_some in F. destruct F as [F1 F2]. apply rounds_in in F1; [|exact WK].
    set (s1 := go (set_wrk (take s j) (Some j)) RCall) in *.
    assert (E1 : s1 = mk (nds s) (cid s) (set (rd s) j (wr s j)) (set (wr s) j []) (cur s) (Some j) (ses s) (asy s)
                       (fly s) RCall (bad s) (log s) (fn s) (fs s)).
    { unfold s1, take. rewrite (R4 j F1). reflexivity. }
    assert (WJ : wr s j <> []).
    { intro E. assert (has_data s j = false) by (apply has_data_no; split; [exact (R4 j F1) | exact E]). congruence. }
    destruct (i_job _ V1) as [(_ & _ & Q & _)|(j' & B)]; [rewrite E1 in Q; cbn [pc] in Q; contradiction|].
    destruct (finish s1 j' V1 B) as (acts & s' & Q1 & Q2 & Q3 & Q4 & Q5 & Q6 & Q7).
    exists (AReader :: acts), s'. split; [constructor; [exact Logic.I | exact Q1]|].
    split; [cbn [run]; rewrite ST; exact Q2|]. split; [exact Q3 | split; [exact Q4|]].
    split; [rewrite Q5, E1; reflexivity|].
    assert (LT : (waiting s' < waiting s)%nat).
    { unfold waiting. rewrite Q6, Q7, E1. cbn [nds wr].
      destruct (in_split _ _ F1) as (a & b & E2). rewrite E2, !filter_app, !app_length. cbn [filter].
      rewrite set_same. destruct (wr s j) as [|w0 wt] eqn:WJ'; [contradiction|]. cbn [List.length].
      assert (LE : forall l, (List.length (filter (fun y => match set (wr s) j [] y with [] => false | _ => true end) l)
                   <= List.length (filter (fun y => match wr s y with [] => false | _ => true end) l))%nat).
      { induction l as [|y l IH]; [apply le_n|]. cbn [filter]. destruct (Z.eq_dec y j) as [->|N].
        - rewrite set_same. destruct (wr s j); cbn [List.length]; lia.
        - rewrite set_other by exact N. destruct (wr s y); cbn [List.length]; lia. }
      pose proof (LE a). pose proof (LE b). lia. }
    split; [lia | intros _; exact LT].
  - exists [AReader], (go (set_wrk s None) RLook). split; [repeat constructor|].
    split; [cbn [run]; rewrite ST; reflexivity|]. split; [exact V1|].
    split; [split; [exact R1 | split; [exact R2 | split; [discriminate | exact R4]]]|]. split; [reflexivity|].
    split; [reflexivity|]. intros NZ. exfalso. apply NZ. unfold waiting. 
    assert (G : forall l, (forall y, In y l -> In y (nds s)) -> filter (fun y => match wr s y with [] => false | _ => true end) l = []).
    { induction l as [|y l IH]; intros H; [reflexivity|]. cbn [filter].
      pose proof (find_none _ _ F y) as FN. rewrite rounds_in in FN by exact WK.
      destruct (proj1 (has_data_no s y) (FN (H y (or_introl eq_refl)))) as [_ ->].
      apply IH. intros z Hz. apply H. right. exact Hz. }
    rewrite (G (nds s)) by tauto. reflexivity.
Qed.

Lemma test_lock : forall s i, inv s -> rest s -> pc s = RTest i -> inv (go s (RLock i)) /\ step AReader s = Some (go s (RLock i)).
Proof.
  intros s i V R P. pose proof (i_pc _ V i (or_introl P)) as W. pose proof (i_wrk _ V) as WK. rewrite W in WK.
  assert (E : reader s = go s (RLock i)).
  { unfold reader. rewrite P. replace (here i (nds s)) with true by (symmetry; apply here_in; exact WK).
    destruct R as (_ & _ & _ & R4). rewrite (R4 i WK). reflexivity. }
  split; [rewrite <- E; apply reader_inv, V | cbn [step]; rewrite E; reflexivity].
Qed.

Lemma settle : forall s, inv s -> exists acts s', Forall own acts /\ run acts s = Some s' /\ inv s' /\ rest s' /\ pc s' = RLook.
Proof.
  assert (RS : forall s, inv s -> rest s -> exists acts s', Forall own acts /\ run acts s = Some s' /\ inv s' /\ rest s' /\ pc s' = RLook).
  { intros s V R. destruct (pc s) as [|i|i|] eqn:P.
    - exists [], s. split; [constructor | split; [reflexivity | split; [exact V | split; [exact R | exact P]]]].
    - destruct (test_lock s i V R P) as [V1 S1].
      destruct (lock_scan (go s (RLock i)) i V1 eq_refl) as (acts & s' & Q1 & Q2 & Q3 & Q4 & Q5 & _).
      exists (AReader :: acts), s'. split; [constructor; [exact Logic.I | exact Q1]|].
      split; [cbn [run]; rewrite S1; exact Q2|]. tauto.
    - destruct (lock_scan s i V P) as (acts & s' & Q1 & Q2 & Q3 & Q4 & Q5 & _). exists acts, s'. tauto.
    - destruct R as (_ & _ & R & _). contradiction. }
  intros s V. destruct (i_job _ V) as [R|(i & B)]; [apply RS; assumption|].
  destruct (finish s i V B) as (acts & s1 & Q1 & Q2 & Q3 & Q4 & _).
  destruct (RS s1 Q3 Q4) as (acts2 & s2 & T1 & T2 & T3).
  exists (acts ++ acts2), s2. split; [apply Forall_app; split; assumption|].
  split; [rewrite run_app, Q2; exact T2 | exact T3].
Qed.

Lemma drain : forall n s, (waiting s <= n)%nat -> inv s -> rest s -> pc s = RLook ->
  exists acts s', Forall own acts /\ run acts s = Some s' /\ inv s' /\ rest s' /\ waiting s' = 0%nat.
Proof.
  induction n as [|n IH]; intros s H V R P.
  - exists [], s. split; [constructor | split; [reflexivity | split; [exact V | split; [exact R | lia]]]].
  - destruct (Nat.eq_dec (waiting s) 0) as [Z0|NZ];
      [exists [], s; split; [constructor | split; [reflexivity | split; [exact V | split; [exact R | exact Z0]]]]|].
    assert (WI : exists i, wrk s = Some i).
    { destruct (wrk s) as [i|] eqn:W; [exists i; reflexivity|]. exfalso. apply NZ.
      pose proof (i_wrk _ V) as WK. rewrite W in WK. unfold waiting.
      assert (G : forall l, (forall y, In y l -> In y (nds s)) -> filter (fun y => match wr s y with [] => false | _ => true end) l = []).
      { induction l as [|y l IHl]; intros G; [reflexivity|]. cbn [filter].
        destruct (WK y (G y (or_introl eq_refl))) as [_ ->]. apply IHl. intros z Hz. apply G. right. exact Hz. }
      rewrite (G (nds s)) by tauto. reflexivity. }
    destruct WI as [i W].
    assert (S0 : reader s = go s (RTest i)) by (unfold reader; rewrite P, W; reflexivity).
    assert (V0 : inv (go s (RTest i))) by (rewrite <- S0; apply reader_inv, V).
    assert (R0 : rest (go s (RTest i))).
    { destruct R as (R1 & R2 & R3 & R4). split; [exact R1 | split; [exact R2 | split; [discriminate | exact R4]]]. }
    destruct (test_lock (go s (RTest i)) i V0 R0 eq_refl) as [V1 S1].
    destruct (lock_scan (go (go s (RTest i)) (RLock i)) i V1 eq_refl) as (acts & s1 & Q1 & Q2 & Q3 & Q4 & Q5 & Q6 & Q7).
    change (waiting (go (go s (RTest i)) (RLock i))) with (waiting s) in *.
    destruct (IH s1) as (acts2 & s2 & T1 & T2 & T3 & T4 & T5); [pose proof (Q7 NZ); lia | exact Q3 | exact Q4 | exact Q5|].
    exists (AReader :: AReader :: acts ++ acts2), s2.
    split; [repeat (constructor; [exact Logic.I|]); apply Forall_app; split; assumption|].
    split; [|tauto]. change (run (AReader :: AReader :: acts ++ acts2) s) with
      (match step AReader s with Some s' => match step AReader s' with Some s'' => run (acts ++ acts2) s'' | None => None end | None => None end).
    change (step AReader s) with (Some (reader s)). rewrite S0, S1, run_app, Q2. exact T2.
Qed.

Lemma drained : forall s, inv s -> rest s -> waiting s = 0%nat -> settled (log s).
Proof.
  intros s V (_ & _ & _ & R4) W k NC.
  destruct (i_gone _ V k) as [[c K]|[H|[H1 H2]]]; [|contradiction | congruence].
  destruct (i_open _ V c k K) as [O _]. unfold pend in O. destruct (find_cid s c) as [i|] eqn:F.
  - destruct (find_cid_some _ _ _ F) as [F1 _]. rewrite (R4 i F1) in O.
    assert (wr s i = []).
    { destruct (wr s i) eqn:E; [reflexivity|]. exfalso. unfold waiting in W. apply length_zero_iff_nil in W.
      assert (X : In i (filter (fun y => match wr s y with [] => false | _ => true end) (nds s)))
        by (apply filter_In; rewrite E; split; [exact F1 | reflexivity]).
      rewrite W in X. destruct X. }
    rewrite H, app_nil_r in O. exact O.
  - rewrite app_nil_r in O. exact O.
Qed.

(** ** turns *)
Fixpoint idx (x : Z) (l : list Z) : nat :=
  match l with [] => 0 | y :: t => if y =? x then 0 else S (idx x t) end.

Lemma idx_app_l : forall x a b, In x a -> idx x (a ++ b) = idx x a.
Proof.
  induction a as [|y a IH]; intros b H; [destruct H|]. cbn [idx app]. destruct (y =? x) eqn:E; [reflexivity|].
  rewrite IH; [reflexivity|]. destruct H; [lia | assumption].
Qed.
Lemma idx_app_r : forall x a b, ~ In x a -> idx x (a ++ b) = (List.length a + idx x b)%nat.
Proof.
  induction a as [|y a IH]; intros b H; [reflexivity|]. cbn [idx app List.length].
  destruct (y =? x) eqn:E; [exfalso; apply H; left; lia|].
  rewrite IH; [reflexivity|]. intro K. apply H. right. exact K.
Qed.
Lemma idx_lt : forall x l, In x l -> (idx x l < List.length l)%nat.
Proof.
  induction l as [|y l IH]; intros H; [destruct H|]. cbn [idx List.length]. destruct (y =? x) eqn:E; [lia|].
  destruct H as [H|H]; [lia|]. specialize (IH H). lia.
Qed.
Lemma idx_insert : forall x f a b, (idx x (a ++ f :: b) <= S (idx x (a ++ b)))%nat.
Proof.
  induction a as [|y a IH]; intros b; cbn [idx app].
  - destruct (f =? x); lia.
  - destruct (y =? x); [lia|]. specialize (IH b). lia.
Qed.

Lemma around_app : forall i a b, ~ In i a -> around i (a ++ i :: b) = (a, b).
Proof.
  induction a as [|x a IH]; intros b H; cbn [around app]; [rewrite Z.eqb_refl; reflexivity|].
  destruct (x =? i) eqn:E; [exfalso; apply H; left; lia|]. rewrite IH; [reflexivity|]. intro K. apply H. right. exact K.
Qed.

Lemma rounds_app : forall i a b, ~ In i a -> rounds i (a ++ i :: b) = b ++ a ++ [i].
Proof. intros. unfold rounds. rewrite around_app by assumption. reflexivity. Qed.

Lemma nodup_mid : forall (a : list Z) i b, NoDup (a ++ i :: b) -> ~ In i a /\ ~ In i b.
Proof.
  intros a i b H. apply NoDup_remove_2 in H. rewrite in_app_iff in H. tauto.
Qed.

(** going on from a node found on the way *)
Lemma rounds_shift : forall l p j u r, NoDup l -> In p l -> rounds p l = u ++ j :: r -> rounds j l = r ++ u ++ [j].
Proof.
  intros l p j u r ND P H. destruct (in_split _ _ P) as (a & b & ->).
  destruct (nodup_mid _ _ _ ND) as [NA NB]. rewrite rounds_app in H by exact NA.
  assert (ND' : NoDup (u ++ j :: r)).
  { rewrite <- H. apply (Permutation_NoDup (l := a ++ p :: b)); [|exact ND].
    transitivity ((p :: b) ++ a); [apply Permutation_app_comm|]. cbn [app].
    transitivity ((b ++ a) ++ [p]); [apply Permutation_cons_append|]. rewrite app_assoc. reflexivity. }
  destruct (nodup_mid _ _ _ ND') as [JU JR].
  assert (SP : forall (x y z w : list Z), x ++ y = z ++ w -> (exists q, x = z ++ q /\ w = q ++ y) \/ (exists q, z = x ++ q /\ y = q ++ w)).
  { induction x as [|x0 x IHx]; intros y z w E.
    - right. exists z. split; [reflexivity | exact E].
    - destruct z as [|z0 z]; [left; exists (x0 :: x); split; [reflexivity | symmetry; exact E]|].
      cbn [app] in E. injection E as E1 E2. subst z0. destruct (IHx _ _ _ E2) as [(q & Q1 & Q2)|(q & Q1 & Q2)].
      + left. exists q. split; [rewrite Q1; reflexivity | exact Q2].
      + right. exists q. split; [rewrite Q1; reflexivity | exact Q2]. }
  destruct (SP _ _ _ _ H) as [(q & Q1 & Q2)|(q & Q1 & Q2)].
  - destruct q as [|q0 q].
    + (* j starts a ++ [p] *)
      rewrite app_nil_r in Q1. cbn [app] in Q2. subst u. destruct a as [|a0 a].
      * cbn [app] in Q2. injection Q2 as Q2 Q3. subst j r. exact (rounds_app p [] b (fun x => x)).
      * cbn [app] in Q2. injection Q2 as Q2 Q3. subst j r. cbn [app].
        etransitivity; [exact (rounds_app a0 [] (a ++ p :: b) (fun x => x))|]. rewrite <- !app_assoc. reflexivity.
    + cbn [app] in Q2. injection Q2 as Q0 Q2. subst q0 b r.
      replace (a ++ p :: u ++ j :: q) with ((a ++ p :: u) ++ j :: q) by (rewrite <- app_assoc; reflexivity).
      rewrite rounds_app; [rewrite <- !app_assoc; reflexivity|].
      replace (a ++ p :: u ++ j :: q) with ((a ++ p :: u) ++ j :: q) in ND by (rewrite <- app_assoc; reflexivity).
      exact (proj1 (nodup_mid _ _ _ ND)).
  - destruct (SP _ _ _ _ Q2) as [(q' & Q3 & Q4)|(q' & Q3 & Q4)].
    + destruct q' as [|q0 q'].
      * rewrite app_nil_r in Q3. cbn [app] in Q4. injection Q4 as Q4 Q5. subst j r q u.
        rewrite rounds_app by exact NA. cbn [app]. rewrite <- !app_assoc. reflexivity.
      * cbn [app] in Q4. injection Q4 as Q0 Q4. subst q0 a r u.
        replace ((q ++ j :: q') ++ p :: b) with (q ++ j :: (q' ++ p :: b)) in * by (rewrite <- app_assoc; reflexivity).
        rewrite rounds_app by exact (proj1 (nodup_mid _ _ _ ND)). rewrite <- !app_assoc. reflexivity.
    + destruct q' as [|q0 q']; cbn [app] in Q4; [injection Q4 as Q4 Q5|].
      * rewrite app_nil_r in Q3. subst j r q u. rewrite rounds_app by exact NA. cbn [app]. rewrite <- !app_assoc. reflexivity.
      * injection Q4 as _ Q4. destruct q'; discriminate.
Qed.

(** a new node makes a turn longer by one *)
Lemma rounds_insert : forall p x f a b, In p (a ++ b) -> p <> f -> ~ In f (a ++ b) ->
  (idx x (rounds p (a ++ f :: b)) <= S (idx x (rounds p (a ++ b))))%nat.
Proof.
  intros p x f a b P N NF.
  assert (E : exists u v, rounds p (a ++ b) = u ++ v /\ rounds p (a ++ f :: b) = u ++ f :: v).
  { destruct (in_dec Z.eq_dec p a) as [PA|PA].
    - destruct (around_ok _ _ PA) as (a1 & a2 & _ & E & NI). subst a. exists (a2), (b ++ a1 ++ [p]).
      split.
      + rewrite <- app_assoc. cbn [app]. rewrite rounds_app by exact NI. rewrite <- app_assoc. reflexivity.
      + rewrite <- app_assoc. cbn [app]. rewrite rounds_app by exact NI. rewrite <- app_assoc. reflexivity.
    - assert (PB : In p b) by (apply in_app_or in P; tauto).
      destruct (around_ok _ _ PB) as (b1 & b2 & _ & E & NI). subst b. exists (b2 ++ a), (b1 ++ [p]).
      split.
      + rewrite app_assoc, rounds_app by (rewrite in_app_iff; tauto). rewrite <- !app_assoc. reflexivity.
      + replace (a ++ f :: b1 ++ p :: b2) with ((a ++ f :: b1) ++ p :: b2) by (rewrite <- app_assoc; reflexivity).
        rewrite rounds_app by (rewrite in_app_iff; cbn [In]; intuition congruence). rewrite <- !app_assoc. reflexivity. }
  destruct E as (u & v & -> & ->). apply idx_insert.
Qed.

(** how many writes may still go out before node x has its turn *)
Inductive phi (s : st) (x : Z) : nat -> Prop :=
  | P_mine : busy s x -> phi s x 0
  | P_rest : forall p, rest s -> wrk s = Some p -> phi s x (S (idx x (rounds p (nds s))))
  | P_busy : forall p, busy s p -> p <> x -> phi s x (S (S (idx x (rounds p (nds s))))).

Lemma phi_some : forall s x, inv s -> In x (nds s) -> has_data s x = true ->
  exists n, phi s x n /\ (n <= List.length (nds s))%nat.
Proof.
  intros s x V X H. pose proof (i_wrk _ V) as WK. destruct (wrk s) as [p|] eqn:W.
  - destruct (in_split _ _ WK) as (a & b & E). pose proof (i_nd _ V) as ND. rewrite E in ND.
    destruct (nodup_mid _ _ _ ND) as [NA NB].
    assert (LR : rounds p (nds s) = b ++ a ++ [p]) by (rewrite E; apply rounds_app; exact NA).
    assert (LL : List.length (nds s) = S (List.length (b ++ a))) by (rewrite E, !app_length; cbn [List.length]; lia).
    destruct (i_job _ V) as [R|(i & B)].
    + exists (S (idx x (rounds p (nds s)))). split; [apply P_rest; assumption|].
      assert (XR : In x (rounds p (nds s))) by (apply rounds_in; assumption).
      pose proof (idx_lt _ _ XR) as L. rewrite LR in L |- *. rewrite app_assoc, app_length in L. cbn [List.length] in L.
      rewrite app_assoc. lia.
    + assert (i = p) by (destruct B as (B1 & _); congruence). subst i. destruct (Z.eq_dec p x) as [->|N].
      * exists 0%nat. split; [apply P_mine; exact B | lia].
      * exists (S (S (idx x (rounds p (nds s))))). split; [apply P_busy; assumption|].
        assert (XR : In x (b ++ a)).
        { rewrite E in X. rewrite in_app_iff in *. cbn [In] in X. intuition congruence. }
        rewrite LR, app_assoc, idx_app_l by exact XR. pose proof (idx_lt _ _ XR). lia.
  - exfalso. rewrite (proj2 (has_data_no s x) (WK x X)) in H. discriminate.
Qed.

Lemma busy_one : forall s i j, busy s i -> busy s j -> i = j.
Proof. intros s i j (A & _) (B & _). congruence. Qed.

(** one step on the way of node x, which has data *)
Lemma turn : forall a s s' x k n, inv s -> calm a s -> step a s = Some s' -> In x (nds s) -> has_data s x = true ->
  ses s (cid s x) = Some k -> phi s x n ->
  exists tr, log s' = log s ++ tr /\
    ((exists j, In (Closed j) tr) \/ (exists b, In (Got k b) tr) \/
     exists n', phi s' x n' /\ In x (nds s') /\ has_data s' x = true /\ cid s' x = cid s x /\ ses s' (cid s' x) = Some k /\
       (n' + writes tr + List.length (nds s) <= n + List.length (nds s'))%nat).
Proof.
  intros a s s' x k n V C H X HD K PH.
  assert (KEEP : forall q, nds q = nds s -> wrk q = wrk s -> rd q = rd s -> (rest s -> rest q) ->
            (forall i, busy s i -> busy q i) -> phi q x n).
  { intros q Q1 Q2 Q3 Q4 Q5. destruct PH as [B|p R W|p B N].
    - apply P_mine. apply Q5, B.
    - rewrite <- Q1. apply P_rest; [apply Q4, R | rewrite Q2; exact W].
    - rewrite <- Q1. apply P_busy; [apply Q5, B | exact N]. }
  assert (XN : x <> fn s) by (pose proof (i_fn _ V x X); lia).
  destruct a as [c|c b|c| |ok|j ok]; cbn [step] in H.
  - (* connect *)
    destruct (ses s c) as [z|] eqn:E; [discriminate|]. injection H as <-. exists []. split; [symmetry; apply app_nil_r|].
    right. right. exists n. cbn [nds cid ses writes]. split; [|split; [exact X | split; [exact HD | split; [reflexivity | split]]]].
    + apply KEEP; try reflexivity.
      * intros R. exact R.
      * intros i (B1 & B2 & B3 & B4). unfold busy. cbn [nds cid rd wr cur wrk ses asy fly pc bad log fn fs].
        split; [exact B1 | split; [exact B2 | split; [exact B3|]]].
        destruct B4 as [B4|[B4|(B4 & B5 & k0 & B6 & B7)]]; [tauto | tauto|].
        right. right. split; [exact B4 | split; [exact B5|]]. exists k0. split; [exact B6|].
        rewrite set_other; [exact B7 | congruence].
    + rewrite set_other; [exact K | congruence].
    + lia.
  - (* send *)
    destruct (ses s c) as [k0|] eqn:E; injection H as <-.
    2:{ exists []. split; [symmetry; apply app_nil_r|]. right. right. exists n. cbn [writes].
        split; [exact PH | repeat split; try assumption; lia]. }
    pose proof (i_wrk _ V) as WK.
    assert (WS : exists p, wrk s = Some p).
    { destruct (wrk s) as [p|]; [exists p; reflexivity|]. exfalso.
      rewrite (proj2 (has_data_no s x) (WK x X)) in HD. discriminate. }
    destruct WS as [p W]. rewrite W in WK. unfold catch_push. destruct (find_cid s c) as [i|] eqn:F.
    + cbn [say log nds cid rd wr cur wrk ses asy fly pc bad fn fs]. exists [Sent k0 b]. split; [reflexivity|].
      right. right. exists n. cbn [writes].
      split; [|split; [exact X | split; [|split; [reflexivity | split; [exact K | lia]]]]].
      * apply KEEP; cbn [say log nds cid rd wr cur wrk ses asy fly pc bad fn fs]; try reflexivity.
        -- rewrite W. reflexivity.
        -- intros R. exact R.
        -- intros y B. unfold busy in *. cbn [say log nds cid rd wr cur wrk ses asy fly pc bad fn fs]. rewrite W in *. exact B.
      * unfold has_data in *. cbn [say rd wr]. destruct (rd s x) eqn:RX; [|reflexivity].
        destruct (Z.eq_dec x i) as [->|N]; [rewrite set_same | rewrite set_other by exact N; exact HD].
        destruct (wr s i); [discriminate | reflexivity].
    + destruct (add_chain s c V) as (u & v & E1 & E2 & E3 & E4 & E5).
      assert (NF : ~ In (fn s) (nds s)) by (intro Q; pose proof (i_fn _ V _ Q); lia).
      assert (PN : p <> fn s) by (intro Q; subst p; contradiction).
      exists [Sent k0 b]. split; [rewrite E5; reflexivity|]. right. right.
      rewrite E5. cbn [say log nds cid rd wr cur wrk ses asy fly pc bad fn fs]. rewrite E2.
      assert (BU : forall y, busy s y -> busy (say (mk (u ++ fn s :: v) (set (cid s) (fn s) c) (set (rd s) (fn s) [])
                   (set (set (wr s) (fn s) []) (fn s) (set (wr s) (fn s) [] (fn s) ++ b)) (cur (catch_add s c))
                   (match wrk s with Some z => Some z | None => Some (fn s) end) (ses s) (asy s) (fly s) (pc s) (bad s)
                   (log s) (fn s + 1) (fs s)) (Sent k0 b)) y).
      { intros y (B1 & B2 & B3 & B4). assert (y <> fn s) by congruence.
        unfold busy. cbn [say log nds cid rd wr cur wrk ses asy fly pc bad fn fs].
        rewrite !(set_other _ (cid s)), !(set_other _ (rd s)) by assumption. rewrite B1. tauto. }
      assert (LE : (idx x (rounds p (u ++ fn s :: v)) <= S (idx x (rounds p (nds s))))%nat).
      { rewrite E1. apply rounds_insert; [rewrite <- E1; exact WK | exact PN | rewrite <- E1; exact NF]. }
      assert (LL : List.length (u ++ fn s :: v) = S (List.length (nds s))) by (rewrite E1, !app_length; cbn [List.length]; lia).
      assert (TL : In x (u ++ fn s :: v) /\
        has_data (say (mk (u ++ fn s :: v) (set (cid s) (fn s) c) (set (rd s) (fn s) [])
                   (set (set (wr s) (fn s) []) (fn s) (set (wr s) (fn s) [] (fn s) ++ b)) (cur (catch_add s c))
                   (match wrk s with Some z => Some z | None => Some (fn s) end) (ses s) (asy s) (fly s) (pc s) (bad s)
                   (log s) (fn s + 1) (fs s)) (Sent k0 b)) x = true /\
        set (cid s) (fn s) c x = cid s x /\ ses s (set (cid s) (fn s) c x) = Some k).
      { rewrite !(set_other _ (cid s)) by exact XN. split; [|split; [|split; [reflexivity | exact K]]].
        - rewrite E1 in X. rewrite in_app_iff in *. cbn [In]. tauto.
        - unfold has_data in *. cbn [say rd wr]. rewrite !set_other by exact XN. exact HD. }
      destruct TL as (T1 & T2 & T3 & T4).
      assert (PH' : exists n', (n' <= S n)%nat /\ phi (say (mk (u ++ fn s :: v) (set (cid s) (fn s) c) (set (rd s) (fn s) [])
                   (set (set (wr s) (fn s) []) (fn s) (set (wr s) (fn s) [] (fn s) ++ b)) (cur (catch_add s c))
                   (match wrk s with Some z => Some z | None => Some (fn s) end) (ses s) (asy s) (fly s) (pc s) (bad s)
                   (log s) (fn s + 1) (fs s)) (Sent k0 b)) x n').
      { destruct PH as [B|p' (R1 & R2 & R3 & R4) W'|p' B N].
        - exists 0%nat. split; [lia|]. apply P_mine, BU, B.
        - assert (p' = p) by congruence. subst p'. eexists. split; [apply le_n_S, LE|].
          refine (P_rest _ _ p _ _); cbn [say wrk]; [|rewrite W; reflexivity].
          split; [exact R1 | split; [exact R2 | split; [exact R3|]]]. cbn [say nds rd]. intros y Hy.
          destruct (Z.eq_dec y (fn s)) as [->|NY]; [apply set_same|]. rewrite set_other by exact NY. apply R4.
          rewrite E1. rewrite in_app_iff in *. cbn [In] in Hy. intuition congruence.
        - assert (p' = p) by (destruct B as (B1 & _); congruence). subst p'. eexists. split; [apply le_n_S, le_n_S, LE|].
          refine (P_busy _ _ p _ N). apply BU, B. }
      destruct PH' as (n' & PL & PP). exists n'. split; [exact PP|]. split; [exact T1|]. split; [exact T2|].
      split; [exact T3|]. split; [exact T4|]. cbn [writes]. rewrite LL. lia.
  - (* end *)
    destruct (ses s c) as [k0|] eqn:E; injection H as <-.
    + exists [Asked k0; Closed k0]. pose proof (del_fields (say s (Asked k0)) c) as (_ & _ & _ & F4 & _ & _ & _ & _ & F9 & _).
      cbv zeta in *. split.
      * unfold server_delete. rewrite F4. cbn [say ses]. rewrite E. cbn [say log]. rewrite F9. cbn [say log].
        rewrite <- app_assoc. reflexivity.
      * left. exists k0. right. left. reflexivity.
    + rewrite end_none by assumption. exists []. split; [symmetry; apply app_nil_r|]. right. right. exists n. cbn [writes].
      split; [exact PH | repeat split; try assumption; lia].
  - (* reader *)
    injection H as <-. exists []. cbn [writes]. pose proof (i_wrk _ V) as WK.
    destruct (pc s) as [|i|i|] eqn:P.
    + unfold reader. rewrite P. split; [destruct (wrk s); cbn [go log]; symmetry; apply app_nil_r|].
      right. right. exists n. destruct (wrk s) as [i|] eqn:W.
      * cbn [go nds cid ses]. split; [|repeat split; try assumption; lia].
        apply KEEP; try reflexivity; [exact W | |].
        -- intros (R1 & R2 & R3 & R4). split; [exact R1 | split; [exact R2 | split; [discriminate | exact R4]]].
        -- intros y (B1 & B2 & B3 & B4). unfold busy. cbn [go nds cid rd wr cur wrk ses asy fly pc bad log fn fs].
           split; [exact B1 | split; [exact B2 | split; [discriminate|]]].
           destruct B4 as [(B4 & B5 & B6)|[(B4 & B5 & B6)|(B4 & B5 & B6)]]; [left | congruence | right; right].
           ++ split; [exact B4 | split; [exact B5 | discriminate]].
           ++ split; [exact B4 | split; [discriminate | exact B6]].
      * split; [exact PH | repeat split; try assumption; lia].
    + pose proof (i_pc _ V i (or_introl P)) as W. rewrite W in WK.
      unfold reader. rewrite P. replace (here i (nds s)) with true by (symmetry; apply here_in; exact WK).
      split; [destruct (rd s i); cbn [go log]; symmetry; apply app_nil_r|]. right. right. exists n.
      destruct (rd s i) as [|r0 r] eqn:RI; cbn [go nds cid ses]; (split; [|repeat split; try assumption; lia]);
        apply KEEP; try reflexivity.
      * intros (R1 & R2 & R3 & R4). split; [exact R1 | split; [exact R2 | split; [discriminate | exact R4]]].
      * intros y (B1 & B2 & _). exfalso. assert (y = i) by congruence. subst y. contradiction.
      * intros (R1 & R2 & R3 & R4). split; [exact R1 | split; [exact R2 | split; [discriminate | exact R4]]].
      * intros y (B1 & B2 & B3 & B4). unfold busy. cbn [go nds cid rd wr cur wrk ses asy fly pc bad log fn fs].
        split; [exact B1 | split; [exact B2 | split; [discriminate|]]].
        destruct B4 as [(B4 & B5 & B6)|[(B4 & B5 & B6)|(B4 & B5 & B6)]]; [left | congruence | right; right].
        -- split; [exact B4 | split; [exact B5 | discriminate]].
        -- split; [exact B4 | split; [discriminate | exact B6]].
    + pose proof (i_pc _ V i (or_intror P)) as W. rewrite W in WK.
      assert (R : rest s).
      { destruct (i_job _ V) as [R|(y & _ & _ & B3 & _)]; [exact R | exfalso; exact (B3 i P)]. }
      pose proof R as (R1 & R2 & R3 & R4).
      pose proof (scan_inv s i V P) as V1.
      unfold reader. rewrite P. replace (here i (nds s)) with true by (symmetry; apply here_in; exact WK).
      unfold reader_scan in *. destruct (find (has_data s) (rounds i (nds s))) as [j|] eqn:F.
      2:{ exfalso. pose proof (find_none _ _ F x) as FN. rewrite rounds_in in FN by exact WK. rewrite (FN X) in HD. discriminate. }
      pose proof (find_some _ _ F) as [F1 F2]. pose proof F1 as F1'. apply rounds_in in F1; [|exact WK].
      assert (E1 : go (set_wrk (take s j) (Some j)) RCall =
                mk (nds s) (cid s) (set (rd s) j (wr s j)) (set (wr s) j []) (cur s) (Some j) (ses s) (asy s)
                       (fly s) RCall (bad s) (log s) (fn s) (fs s)).
      { unfold take. rewrite (R4 j F1). reflexivity. }
      rewrite E1 in *. cbn [log nds cid ses].
      split; [symmetry; apply app_nil_r|]. right. right.
      assert (B : busy (mk (nds s) (cid s) (set (rd s) j (wr s j)) (set (wr s) j []) (cur s) (Some j) (ses s) (asy s)
                       (fly s) RCall (bad s) (log s) (fn s) (fs s)) j).
      { destruct (i_job _ V1) as [(_ & _ & Q & _)|(y & B)]; [cbn [pc] in Q; contradiction|].
        replace j with y at 5; [exact B|]. destruct B as (B1 & _). cbn [wrk] in B1. congruence. }
      assert (HD' : has_data (mk (nds s) (cid s) (set (rd s) j (wr s j)) (set (wr s) j []) (cur s) (Some j) (ses s) (asy s)
                       (fly s) RCall (bad s) (log s) (fn s) (fs s)) x = true).
      { unfold has_data. cbn [rd wr]. destruct (Z.eq_dec x j) as [->|N].
        - rewrite !set_same. unfold has_data in F2. rewrite (R4 j F1) in F2. destruct (wr s j); [discriminate | reflexivity].
        - rewrite !set_other by exact N. exact HD. }
      destruct (Z.eq_dec j x) as [->|N].
      * exists 0%nat. split; [apply P_mine; exact B | repeat split; try assumption; lia].
      * eexists. split; [apply (P_busy _ x j); [exact B | exact N]|].
        split; [exact X | split; [exact HD' | split; [reflexivity | split; [exact K|]]]]. cbn [nds].
        (* x comes behind j *)
        assert (SPL : exists u r, rounds i (nds s) = u ++ j :: r /\ forall y, In y u -> has_data s y = false).
        { clear -F. induction (rounds i (nds s)) as [|y l IH]; [discriminate|]. cbn [find] in F.
          destruct (has_data s y) eqn:E.
          - injection F as ->. exists [], l. split; [reflexivity | intros y []].
          - destruct (IH F) as (u & r & E1 & E2). exists (y :: u), r. rewrite E1. split; [reflexivity|].
            intros z [->|Hz]; [exact E | exact (E2 z Hz)]. }
        destruct SPL as (u & r & E2 & E3).
        assert (XU : ~ In x u) by (intro Q; rewrite (E3 x Q) in HD; discriminate).
        assert (XR : In x r).
        { assert (Q : In x (rounds i (nds s))) by (apply rounds_in; assumption). rewrite E2, in_app_iff in Q. cbn [In] in Q.
          intuition congruence. }
        rewrite (rounds_shift (nds s) i j u r (i_nd _ V) WK E2).
        inversion PH as [B'|p' R' W'|p' B' N']; subst.
        -- exfalso. destruct B' as (_ & _ & B3 & _). exact (B3 i P).
        -- assert (p' = i) by congruence. subst p'. rewrite E2, idx_app_l by exact XR. rewrite idx_app_r by exact XU.
           cbn [idx]. replace (j =? x) with false by lia. lia.
        -- exfalso. destruct B' as (_ & _ & B3 & _). exact (B3 i P).
    + destruct (i_job _ V) as [(_ & _ & Q & _)|(y & B)]; [congruence|]. pose proof B as (B1 & B2 & B3 & B4).
      unfold reader. rewrite P, B1. cbn [log nds cid ses]. split; [symmetry; apply app_nil_r|]. right. right. exists n.
      split; [|repeat split; try assumption; lia].
      apply KEEP; try reflexivity; cbn [wrk]; [symmetry; exact B1 | |].
      * intros (_ & _ & Q & _). congruence.
      * intros z Bz. assert (z = y) by exact (busy_one _ _ _ Bz B). subst z. unfold busy.
        cbn [nds cid rd wr cur wrk ses asy fly pc bad log fn fs].
        split; [reflexivity | split; [exact B2 | split; [discriminate|]]]. left. split; [reflexivity | split; [|discriminate]].
        destruct B4 as [(B4 & B5 & B6)|[(B4 & B5 & B6)|(B4 & B5 & B6)]]; [exact B5 | exact B5 | congruence].
  - (* callback *)
    destruct (asy s) eqn:A; [|discriminate]. injection H as <-.
    destruct (i_job _ V) as [(Q & _)|(i & B)]; [congruence|]. destruct (busy_async _ _ B A) as [FL NP].
    pose proof B as (B1 & B2 & B3 & B4). pose proof (i_wrk _ V) as WK. rewrite B1 in WK.
    destruct (ses s (cid s i)) as [k0|] eqn:K0; [|exfalso; exact (i_sub _ V i WK K0)].
    unfold async_write. cbn [nds cid rd wr cur wrk ses asy fly pc bad log fn fs]. rewrite B1, K0.
    destruct (rd s i) as [|r0 r] eqn:RI; [contradiction|]. destruct ok.
    + exists []. cbn [log nds cid ses writes]. split; [symmetry; apply app_nil_r|]. right. right. exists n.
      split; [|repeat split; try assumption; lia].
      apply KEEP; try reflexivity; cbn [wrk]; [symmetry; exact B1 | |].
      * intros (Q & _). congruence.
      * intros z Bz. assert (z = i) by exact (busy_one _ _ _ Bz B). subst z. unfold busy.
        cbn [nds cid rd wr cur wrk ses asy fly pc bad log fn fs].
        split; [reflexivity | split; [congruence | split; [exact B3|]]]. right. right. split; [reflexivity | split; [exact NP|]].
        exists k0. rewrite FL, RI. split; [reflexivity | exact K0].
    + exists [Failed k0; Closed k0]. split.
      * unfold server_delete. 
        match goal with |- context [catch_del ?q ?c] => pose proof (del_fields q c) as (_ & _ & _ & F4 & _ & _ & _ & _ & F9 & _) end.
        cbv zeta in *. rewrite F4. cbn [say ses]. rewrite K0. cbn [say log]. rewrite F9. cbn [say log]. rewrite <- app_assoc. reflexivity.
      * left. exists k0. right. left. reflexivity.
  - (* a write reported *)
    destruct (landing j (fly s)) as [[b t]|] eqn:L; [|discriminate]. injection H as <-.
    destruct (landing_job _ _ _ _ V L) as (i & B & F & -> & -> & K0 & A & NP & WK). pose proof B as (B1 & B2 & B3 & B4).
    unfold write_after. cbn [say nds cid rd wr cur wrk ses asy fly pc bad log fn fs]. rewrite B1, K0. destruct ok.
    + unfold catch_stop. cbn [say nds cid rd wr cur wrk ses asy fly pc bad log fn fs].
      exists [Got j (rd s i)]. split; [reflexivity|]. right.
      destruct (Z.eq_dec i x) as [->|N].
      * left. exists (rd s x). assert (j = k) by congruence. subst j. left. reflexivity.
      * right. inversion PH as [B'|p' R' W'|p' B' N']; subst.
        -- exfalso. apply N. exact (busy_one _ _ _ B B').
        -- exfalso. destruct R' as (_ & R2 & _). congruence.
        -- assert (p' = i) by exact (busy_one _ _ _ B' B). subst p'. exists (S (idx x (rounds i (nds s)))).
           split; [|split; [exact X | split; [|split; [reflexivity | split; [exact K | cbn [writes]; lia]]]]].
           ++ refine (P_rest _ _ i _ _); cbn [wrk]; [|reflexivity].
              split; [exact A | split; [reflexivity | split; [exact NP|]]]. cbn [nds rd]. intros y Hy.
              destruct (Z.eq_dec y i) as [->|NY]; [apply set_same|]. rewrite set_other by exact NY.
              apply (i_oth _ V y Hy). congruence.
           ++ unfold has_data in *. cbn [rd wr]. rewrite set_other by congruence. exact HD.
    + exists [Failed j; Closed j]. split.
      * unfold server_delete. 
        match goal with |- context [catch_del ?q ?c] => pose proof (del_fields q c) as (_ & _ & _ & F4 & _ & _ & _ & _ & F9 & _) end.
        cbv zeta in *. rewrite F4. cbn [say ses]. rewrite K0. cbn [say log]. rewrite F9. cbn [say log]. rewrite <- app_assoc. reflexivity.
      * left. exists j. right. left. reflexivity.
Qed.

Lemma run_log : forall acts s s', run acts s = Some s' -> inv s -> calm_run acts s -> exists t2, log s' = log s ++ t2.
Proof.
  intros acts. induction acts as [|a t IH]; intros s s' R V C; cbn [run calm_run] in *.
      - injection R as <-. exists []. symmetry. apply app_nil_r.
      - destruct C as [C1 C2]. destruct (step a s) as [s1|] eqn:ST; [|discriminate].
        assert (S1 : exists t1, log s1 = log s ++ t1).
        { assert (DL : forall q c, exists t1, log (server_delete q c) = log q ++ t1).
          { intros q c. unfold server_delete. pose proof (del_fields q c) as (_ & _ & _ & _ & _ & _ & _ & _ & F9 & _).
            cbv zeta in *. destruct (ses (catch_del q c) c); cbn [say log]; rewrite F9; eexists; [reflexivity|].
            symmetry. apply app_nil_r. }
          destruct a as [c|c b|c| |ok|j ok]; cbn [step] in ST.
          - destruct (ses s c); [discriminate|]. injection ST as <-. exists []. symmetry. apply app_nil_r.
          - destruct (ses s c); injection ST as <-; [|exists []; symmetry; apply app_nil_r].
            exists [Sent z b]. cbn [say log]. f_equal. unfold catch_push. destruct (find_cid s c); [reflexivity|].
            destruct (add_chain s c V) as (_ & _ & _ & _ & _ & _ & E5). rewrite E5. reflexivity.
          - destruct (ses s c) as [z|]; injection ST as <-.
            + destruct (DL (say s (Asked z)) c) as (q & Q). rewrite Q. cbn [say log]. rewrite <- app_assoc. eexists. reflexivity.
            + apply DL.
          - injection ST as <-. exists []. rewrite app_nil_r. unfold reader. destruct (pc s) as [|i|i|].
            + destruct (wrk s); reflexivity.
            + destruct (here i (nds s)); [destruct (rd s i); reflexivity | reflexivity].
            + destruct (here i (nds s)); [|reflexivity]. unfold reader_scan, take.
              destruct (find (has_data s) (rounds i (nds s))) as [j|]; [destruct (rd s j); reflexivity | reflexivity].
            + unfold catch_stop. destruct (wrk s) eqn:W; [reflexivity|]. reflexivity.
          - destruct (asy s); [|discriminate]. injection ST as <-. unfold async_write, catch_stop.
            cbn [nds cid rd wr cur wrk ses asy fly pc bad log fn fs].
            destruct (wrk s) as [i|]; [|exists []; cbn [log]; symmetry; apply app_nil_r].
            destruct (ses s (cid s i)); [|exists []; cbn [log]; symmetry; apply app_nil_r].
            destruct (rd s i); [exists []; cbn [log]; symmetry; apply app_nil_r|].
            destruct ok; [exists []; cbn [log]; symmetry; apply app_nil_r|].
            match goal with |- context [server_delete ?q ?c] => destruct (DL q c) as (w & Q) end.
            rewrite Q. cbn [say log]. rewrite <- app_assoc. eexists. reflexivity.
          - destruct (landing j (fly s)) as [[b w]|]; [|discriminate]. injection ST as <-.
            unfold write_after, catch_stop. cbn [say nds cid rd wr cur wrk ses asy fly pc bad log fn fs].
            destruct (wrk s) as [i|]; [|eexists; reflexivity].
            destruct (ses s (cid s i)).
            + destruct ok; [eexists; reflexivity|].
              match goal with |- context [server_delete ?q ?c] => destruct (DL q c) as (w' & Q) end.
              rewrite Q. cbn [say log]. rewrite <- app_assoc. eexists. reflexivity.
            + match goal with |- context [catch_del ?q ?c] => pose proof (del_fields q c) as (_ & _ & _ & _ & _ & _ & _ & _ & F9 & _) end.
              cbv zeta in *. rewrite F9. cbn [say log]. eexists. reflexivity. }
        destruct S1 as (t1 & E1). destruct (IH s1 s' R (step_inv a s s1 V C1 ST) C2) as (t2 & E2).
        exists (t1 ++ t2). rewrite E2, E1, <- app_assoc. reflexivity.
Qed.

Lemma turns : forall acts s s' x k n tr, inv s -> calm_run acts s -> run acts s = Some s' -> In x (nds s) ->
  has_data s x = true -> ses s (cid s x) = Some k -> phi s x n -> log s' = log s ++ tr ->
  (forall j, ~ In (Closed j) tr) -> (forall b, ~ In (Got k b) tr) ->
  (writes tr + List.length (nds s) <= n + List.length (nds s'))%nat.
Proof.
  induction acts as [|a t IH]; intros s s' x k n tr V C R X HD K PH E NC NG; cbn [run calm_run] in *.
  - injection R as <-. assert (tr = []) by (apply (app_inv_head (log s)); rewrite app_nil_r; symmetry; exact E).
    subst tr. cbn [writes]. lia.
  - destruct C as [C1 C2]. destruct (step a s) as [s1|] eqn:ST; [|discriminate].
    destruct (turn a s s1 x k n V C1 ST X HD K PH) as (t1 & E1 & T).
    assert (V1 : inv s1) by exact (step_inv a s s1 V C1 ST).
    destruct (run_log t s1 s' R V1 C2) as (t2 & E2).
    assert (ET : tr = t1 ++ t2).
    { apply (app_inv_head (log s)). rewrite <- E, E2, E1, <- app_assoc. reflexivity. }
    subst tr. destruct T as [(j & T)|[(b & T)|(n' & P1 & X1 & H1 & D1 & K1 & LE)]].
    + exfalso. apply (NC j). apply in_or_app. left. exact T.
    + exfalso. apply (NG b). apply in_or_app. left. exact T.
    + specialize (IH s1 s' x k n' t2 V1 C2 R X1 H1 K1 P1 E2).
      rewrite writes_app. enough (writes t2 + List.length (nds s1) <= n' + List.length (nds s'))%nat by lia.
      apply IH.
      * intros j T. apply (NC j). apply in_or_app. right. exact T.
      * intros b T. apply (NG b). apply in_or_app. right. exact T.
Qed.

(** the nodes belong to sessions bytes were handed over for *)
Definition noted (s : st) : Prop :=
  forall i k, In i (nds s) -> ses s (cid s i) = Some k -> exists b, In (Sent k b) (log s).

Lemma step_noted : forall a s s', inv s -> calm a s -> noted s -> step a s = Some s' -> noted s'.
Proof.
  intros a s s' V C N H i k Hi K.
  assert (CR : calm_run [a] s) by (cbn [calm_run]; rewrite H; split; [exact C | exact Logic.I]).
  assert (RR : run [a] s = Some s') by (cbn [run]; rewrite H; reflexivity).
  destruct (run_log _ _ _ RR V CR) as (tr & E).
  assert (OLD : In i (nds s) -> ses s (cid s i) = Some k -> exists b, In (Sent k b) (log s')).
  { intros H1 H2. destruct (N i k H1 H2) as [b B]. exists b. rewrite E. apply in_or_app. left. exact B. }
  assert (DEL : forall q c j, inv q -> In j (nds (server_delete q c)) -> ses (server_delete q c) (cid (server_delete q c) j) = Some k ->
            In j (nds q) /\ ses q (cid q j) = Some k).
  { intros q c j VQ. pose proof (del_fields q c) as (F1 & _ & _ & F4 & _). cbv zeta in *. unfold server_delete.
    assert (SUBS : In j (nds (catch_del q c)) -> In j (nds q)).
    { destruct (del_chain q c VQ) as [[_ Q]|(y & u & v & _ & Q2 & _ & Q4 & _)]; [rewrite Q; auto|].
      rewrite Q4, Q2, !in_app_iff. cbn [In]. tauto. }
    destruct (ses (catch_del q c) c); cbn [say nds ses cid]; rewrite F1, F4; intros J1 J2; split; auto.
    unfold set in J2. destruct (cid q j =? c); [discriminate | exact J2]. }
  destruct a as [c|c b|c| |ok|j ok]; cbn [step] in H.
  - destruct (ses s c) eqn:SC; [discriminate|]. injection H as <-. cbn [nds cid ses] in *.
    apply OLD; [exact Hi|]. destruct (Z.eq_dec (cid s i) c) as [Q|Q]; [|rewrite set_other in K; assumption].
    exfalso. apply (i_sub _ V i Hi). rewrite Q. exact SC.
  - destruct (ses s c) as [k0|] eqn:SC; injection H as <-; [|apply OLD; assumption].
    unfold catch_push in *. destruct (find_cid s c) as [y|] eqn:F; cbn [say nds cid ses log] in *; [apply OLD; assumption|].
    destruct (add_chain s c V) as (u & v & E1 & E2 & _ & _ & E5). rewrite E5 in K. cbn [cid ses] in K. rewrite E2 in Hi.
    destruct (Z.eq_dec i (fn s)) as [->|NI].
    + rewrite set_same, SC in K. injection K as <-. exists b. apply in_or_app. right. left. reflexivity.
    + rewrite set_other in K by exact NI. apply OLD; [|exact K]. rewrite E1. rewrite in_app_iff in *. cbn [In] in Hi. intuition congruence.
  - destruct (ses s c) as [k0|] eqn:SC; injection H as <-.
    + pose proof (del_fields (say s (Asked k0)) c) as (F1 & _ & _ & F4 & _). cbv zeta in *.
      assert (Q : In i (nds s) /\ ses s (cid s i) = Some k).
      { revert Hi K. unfold server_delete. rewrite F4. cbn [say ses]. rewrite SC. cbn [say nds ses cid]. rewrite ?F1, ?F4. cbn [say cid ses].
        intros H1 H2. split.
        - assert (Q : nds (catch_del (say s (Asked k0)) c) = nds (catch_del s c)).
          { unfold catch_del, find_cid, say. cbn [cid nds]. destruct (find (fun i0 => cid s i0 =? c) (nds s)); [|reflexivity].
            destruct (around z (nds s)). reflexivity. }
          rewrite Q in H1. destruct (del_chain s c V) as [[_ X]|(y & u & v & _ & Q2 & _ & Q4 & _)]; [rewrite X in H1; exact H1|].
          rewrite Q4 in H1. rewrite Q2. rewrite in_app_iff in *. cbn [In]. tauto.
        - unfold set in H2. destruct (cid s i =? c); [discriminate | exact H2]. }
      apply OLD; apply Q.
    + apply DEL in K; [|exact V | exact Hi]. apply OLD; apply K.
  - injection H as <-. unfold reader in *. destruct (pc s) as [|y|y|].
    + destruct (wrk s); apply OLD; assumption.
    + destruct (here y (nds s)); [destruct (rd s y)|]; apply OLD; assumption.
    + destruct (here y (nds s)); [|apply OLD; assumption]. unfold reader_scan, take in *.
      destruct (find (has_data s) (rounds y (nds s))) as [z|]; [destruct (rd s z)|]; apply OLD; assumption.
    + unfold catch_stop in *. destruct (wrk s) eqn:W; [|rewrite ?W in *]; apply OLD; assumption.
  - destruct (asy s); [|discriminate]. injection H as <-. unfold async_write, catch_stop in *.
    cbn [nds cid rd wr cur wrk ses asy fly pc bad log fn fs] in *.
    destruct (wrk s) as [y|]; [|apply OLD; assumption].
    destruct (ses s (cid s y)) as [k0|] eqn:SC; [|apply OLD; assumption].
    destruct (rd s y); [apply OLD; assumption|]. destruct ok; [apply OLD; assumption|].
    revert Hi K.
    match goal with |- In i (nds (server_delete ?q ?c)) -> _ => set (q0 := q) end.
    intros Hi K.
    assert (Q : In i (nds q0) /\ ses q0 (cid q0 i) = Some k).
    { revert Hi K. unfold server_delete. pose proof (del_fields q0 (cid s y)) as (F1 & _ & _ & F4 & _). cbv zeta in *. rewrite F4.
      change (ses q0 (cid s y)) with (ses s (cid s y)). rewrite SC. cbn [say nds ses cid]. rewrite ?F1, ?F4. intros H1 H2. split.
      - unfold catch_del in H1. destruct (find_cid q0 (cid s y)) as [zz|] eqn:F; [|exact H1].
        destruct (find_cid_some _ _ _ F) as [Z1 _]. destruct (around_ok _ _ Z1) as (u & v & R1 & R2 & _).
        rewrite R1 in H1. cbn [nds] in H1. rewrite R2. rewrite in_app_iff in *. cbn [In]. tauto.
      - unfold set in H2. destruct (cid q0 i =? cid s y); [discriminate | exact H2]. }
    apply OLD; apply Q.
  - destruct (landing j (fly s)) as [[b w]|]; [|discriminate]. injection H as <-.
    unfold write_after, catch_stop in *. cbn [say nds cid rd wr cur wrk ses asy fly pc bad log fn fs] in *.
    destruct (wrk s) as [y|]; [|apply OLD; assumption].
    destruct (ses s (cid s y)) as [k0|] eqn:SC.
    + destruct ok; [apply OLD; assumption|]. revert Hi K.
      match goal with |- In i (nds (server_delete ?q ?c)) -> _ => set (q0 := q) end.
      intros Hi K.
      assert (Q : In i (nds q0) /\ ses q0 (cid q0 i) = Some k).
      { revert Hi K. unfold server_delete. pose proof (del_fields q0 (cid s y)) as (F1 & _ & _ & F4 & _). cbv zeta in *. rewrite F4.
        change (ses q0 (cid s y)) with (ses s (cid s y)). rewrite SC. cbn [say nds ses cid]. rewrite ?F1, ?F4. intros H1 H2. split.
        - unfold catch_del in H1. destruct (find_cid q0 (cid s y)) as [zz|] eqn:F; [|exact H1].
          destruct (find_cid_some _ _ _ F) as [Z1 _]. destruct (around_ok _ _ Z1) as (u & v & R1 & R2 & _).
          rewrite R1 in H1. cbn [nds] in H1. rewrite R2. rewrite in_app_iff in *. cbn [In]. tauto.
        - unfold set in H2. destruct (cid q0 i =? cid s y); [discriminate | exact H2]. }
      apply OLD; apply Q.
    + revert Hi K.
      match goal with |- In i (nds (catch_del ?q ?c)) -> _ => set (q0 := q) end.
      intros H1 H2. pose proof (del_fields q0 (cid s y)) as (F1 & _ & _ & F4 & _). cbv zeta in *. rewrite F1, F4 in H2.
      apply OLD; [|exact H2]. unfold catch_del in H1. destruct (find_cid q0 (cid s y)) as [zz|] eqn:F; [|exact H1].
      destruct (find_cid_some _ _ _ F) as [Z1 _]. destruct (around_ok _ _ Z1) as (u & v & R1 & R2 & _).
      rewrite R1 in H1. cbn [nds] in H1. change (In i (nds q0)). rewrite R2. rewrite in_app_iff in *. cbn [In]. tauto.
Qed.

Lemma run_noted : forall acts s s', inv s -> calm_run acts s -> noted s -> run acts s = Some s' -> noted s'.
Proof.
  induction acts as [|a t IH]; intros s s' V C N R; cbn [run calm_run] in *; [injection R as <-; exact N|].
  destruct C as [C1 C2]. destruct (step a s) as [s1|] eqn:E; [|discriminate].
  apply (IH s1 s'); [exact (step_inv a s s1 V C1 E) | exact C2 | exact (step_noted a s s1 V C1 N E) | exact R].
Qed.

Lemma nodes_covered : forall s l, inv s -> noted s -> covers l (log s) -> (List.length (nds s) <= List.length l)%nat.
Proof.
  intros s l V N C.
  set (f := fun i => match ses s (cid s i) with Some k => k | None => -1 end).
  rewrite <- (map_length f (nds s)). apply NoDup_incl_length.
  - assert (G : forall q, NoDup q -> (forall i, In i q -> In i (nds s)) -> NoDup (map f q)).
    { induction q as [|y q IH]; intros ND S1; [constructor|]. inversion ND as [|? ? N1 N2]; subst. cbn [map]. constructor.
      - intro Q. apply in_map_iff in Q. destruct Q as (z & Q1 & Q2). apply N1.
        replace y with z; [exact Q2|]. apply (i_cid _ V); [apply S1; right; exact Q2 | apply S1; left; reflexivity|].
        unfold f in Q1. destruct (ses s (cid s z)) as [kz|] eqn:KZ; [|exfalso; apply (i_sub _ V z); [apply S1; right; exact Q2 | exact KZ]].
        destruct (ses s (cid s y)) as [ky|] eqn:KY; [|exfalso; apply (i_sub _ V y); [apply S1; left; reflexivity | exact KY]].
        subst kz. apply (i_ses _ V _ _ ky); assumption.
      - apply IH; [exact N2|]. intros i Hi. apply S1. right. exact Hi. }
    apply G; [apply (i_nd _ V) | auto].
  - intros k Q. apply in_map_iff in Q. destruct Q as (i & Q1 & Q2). unfold f in Q1.
    destruct (ses s (cid s i)) as [ki|] eqn:KI; [|exfalso; exact (i_sub _ V i Q2 KI)]. subst ki.
    destruct (N i k Q2 KI) as [b B]. exact (C k b B).
Qed.

(** the queue's own steps only let bytes out *)
Lemma own_log : forall acts s s', inv s -> Forall own acts -> run acts s = Some s' ->
  exists tr, log s' = log s ++ tr /\ Forall (fun e => exists k b, e = Got k b) tr.
Proof.
  induction acts as [|a t IH]; intros s s' V F R; cbn [run] in R.
  - injection R as <-. exists []. split; [symmetry; apply app_nil_r | constructor].
  - inversion F as [|? ? F1 F2]; subst. destruct (step a s) as [s1|] eqn:E; [|discriminate].
    assert (C : calm a s) by (destruct a as [c|c b|c| |[|]|k [|]]; cbn in *; try exact Logic.I; contradiction).
    destruct (IH s1 s' (step_inv a s s1 V C E) F2 R) as (t2 & E2 & G2).
    assert (X : exists t1, log s1 = log s ++ t1 /\ Forall (fun e => exists k b, e = Got k b) t1).
    { destruct a as [c|c b|c| |[|]|k [|]]; cbn in F1; try contradiction; cbn [step] in E.
      - injection E as <-. exists []. rewrite app_nil_r. split; [|constructor].
        unfold reader. destruct (pc s) as [|i|i|].
        + destruct (wrk s); reflexivity.
        + destruct (here i (nds s)); [destruct (rd s i); reflexivity | reflexivity].
        + destruct (here i (nds s)); [|reflexivity]. unfold reader_scan, take.
          destruct (find (has_data s) (rounds i (nds s))) as [j|]; [destruct (rd s j); reflexivity | reflexivity].
        + unfold catch_stop. destruct (wrk s) eqn:W; reflexivity.
      - destruct (asy s); [|discriminate]. injection E as <-. exists []. rewrite app_nil_r. split; [|constructor].
        unfold async_write, catch_stop. cbn [nds cid rd wr cur wrk ses asy fly pc bad log fn fs].
        destruct (wrk s) as [i|]; [|reflexivity]. destruct (ses s (cid s i)); [|reflexivity].
        destruct (rd s i); reflexivity.
      - destruct (landing k (fly s)) as [[b w]|] eqn:L; [|discriminate]. injection E as <-.
        destruct (landing_job _ _ _ _ V L) as (i & (B1 & _) & _ & _ & _ & K & _).
        unfold write_after, catch_stop. cbn [say nds cid rd wr cur wrk ses asy fly pc bad log fn fs]. rewrite B1, K.
        cbn [say log]. exists [Got k b]. split; [reflexivity|]. constructor; [|constructor]. exists k, b. reflexivity. }
    destruct X as (t1 & E1 & G1). exists (t1 ++ t2). split; [rewrite E2, E1, app_assoc; reflexivity|].
    apply Forall_app. split; assumption.
Qed.

Lemma only_got : forall tr, Forall (fun e => exists k b, e = Got k b) tr ->
  (forall k, sent tr k = []) /\ forall k, ~ In (Closed k) tr.
Proof.
  induction tr as [|e tr IH]; intros F; [split; [reflexivity | intros k []]|].
  inversion F as [|? ? (k0 & b0 & ->) F2]; subst. destruct (IH F2) as [I1 I2]. split.
  - intros k. cbn [sent]. apply I1.
  - intros k [H|H]; [discriminate | exact (I2 k H)].
Qed.
