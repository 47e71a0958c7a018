(** Lemmas for the dictionaries of keys. *)
From Verif Require Import Base S_kdict M_kdict.
From Coq Require Import ZifyBool ZifyNat.

Lemma known_ok : forall l k, known l k = true <-> In k l.
Proof. intros l k. unfold known. destruct (in_dec _ k l); split; auto; discriminate. Qed.
Lemma known_no : forall l k, known l k = false <-> ~ In k l.
Proof. intros l k. unfold known. destruct (in_dec _ k l); split; auto; try discriminate. contradiction. Qed.

(** * text *)
Lemma drop_id : forall l, (l = [] \/ 32 < hd 0 l) -> drop_blank l = l.
Proof. intros [|c l] H; [reflexivity|]. destruct H as [H|H]; [discriminate|]. cbn in *. replace (32 <? c) with true by lia. reflexivity. Qed.
Lemma last_hd_rev : forall (l : list Z) d, last l d = hd d (rev l).
Proof.
  intros l d. destruct l as [|x l] using rev_ind; [reflexivity|]. rewrite last_last, rev_app_distr. reflexivity.
Qed.
Lemma trim_id : forall k, plain_name k -> trim k = k.
Proof.
  intros k (N & _ & _ & H & L). unfold trim. rewrite (drop_id (rev k)) by (right; now rewrite <- last_hd_rev). rewrite rev_involutive. apply drop_id. now right.
Qed.
Lemma load_plain : forall k cur rest, ~ In 44 k -> load cur (k ++ rest) = load (cur ++ k) rest.
Proof.
  induction k as [|c k IH]; intros cur rest N; cbn [app]; [now rewrite app_nil_r|]. cbn [load].
  destruct (c =? 44) eqn:E; [destruct N; left; lia|]. rewrite IH by (intros I; apply N; now right). now rewrite <- app_assoc.
Qed.
Lemma load_join : forall l, Forall plain_name l -> load [] (join l) = l.
Proof.
  induction l as [|k l IH]; intros F; [reflexivity|]. inversion F as [|? ? F1 F2]; subst. pose proof F1 as (N & C & _).
  destruct l as [|k' l].
  - cbn [join]. rewrite <- (app_nil_r k) at 1. rewrite load_plain by exact C. cbn [app load]. destruct k; [congruence|]. now rewrite trim_id.
  - change (join (k :: k' :: l)) with (k ++ 44 :: join (k' :: l)). rewrite load_plain by exact C. cbn [app]. cbn [load].
    replace (44 =? 44) with true by lia. rewrite trim_id by exact F1. now rewrite IH.
Qed.
Lemma join_nil : forall l, l <> [] -> Forall plain_name l -> join l <> [].
Proof.
  intros [|k l] N F; [congruence|]. inversion F as [|? ? (K & _) F2]; subst. destruct k; [congruence|]. destruct l; discriminate.
Qed.

(** * names *)
Lemma add_names_new : forall l acc, NoDup (acc ++ l) -> fold_left add_name l acc = acc ++ l.
Proof.
  induction l as [|k l IH]; intros acc N; cbn [fold_left]; [now rewrite app_nil_r|].
  unfold add_name at 2. replace (known acc k) with false; [|symmetry; apply known_no; intros I; apply NoDup_remove_2 in N; apply N, in_or_app; now left].
  rewrite IH; rewrite <- app_assoc; [reflexivity|exact N].
Qed.
Lemma read_snoc_names : forall bs b, read_names (bs ++ [b]) = match b with [] => read_names bs | _ => fold_left add_name (load [] b) (read_names bs) end.
Proof. intros bs b. unfold read_names. rewrite fold_left_app. reflexivity. Qed.

(** a file in order: what a reader gets, and the names not yet written, are the names in memory *)
Definition fine (f : kfile) : Prop :=
  NoDup (k_map f) /\ Forall plain_name (k_map f) /\ read_names (k_blocks f) ++ k_new f = k_map f.
Definition data_fine (f : kfile) : Prop := forall n k, In (n, k) (k_data f) -> nth_error (read_names (k_blocks f)) n = Some k.
Lemma set_fine : forall f k, fine f -> plain_name k -> fine (set_kdict f k).
Proof.
  intros f k (N & P & R) K. unfold set_kdict. destruct (known (k_map f) k) eqn:E; [repeat split; assumption|]. apply known_no in E.
  unfold fine. cbn [k_map k_new k_blocks]. split; [|split].
  - clear -N E. induction (k_map f) as [|x l IH]; cbn; [constructor; [intros []|constructor]|]. inversion N; subst. constructor.
    + intros I. apply in_app_or in I. destruct I as [I|[<-|[]]]; [contradiction|]. apply E. now left.
    + apply IH; [assumption|]. intros I. apply E. now right.
  - apply Forall_app. auto.
  - rewrite app_assoc, R. reflexivity.
Qed.
Lemma write_fine : forall f, fine f -> fine (write_kdict f) /\ k_new (write_kdict f) = [] /\ k_map (write_kdict f) = k_map f.
Proof.
  intros f (N & P & R). unfold write_kdict. destruct (k_new f) as [|k l] eqn:E; [repeat split; auto; now rewrite E|].
  cbn [k_map k_new k_blocks]. split; [|auto]. unfold fine. cbn [k_map k_new k_blocks]. split; [exact N|]. split; [exact P|].
  rewrite app_nil_r, read_snoc_names.
  assert (PN : Forall plain_name (k :: l)) by (rewrite <- R in P; apply Forall_app in P; tauto).
  pose proof (join_nil (k :: l) ltac:(discriminate) PN) as JN. rewrite load_join by exact PN.
  destruct (join (k :: l)); [congruence|]. rewrite add_names_new; [exact R|]. now rewrite R.
Qed.
Lemma reads_grow : forall f, fine f -> exists l, read_names (k_blocks (write_kdict f)) = read_names (k_blocks f) ++ l.
Proof.
  intros f F. destruct (write_fine f F) as ((_ & _ & R1) & E & M). rewrite E, app_nil_r in R1. exists (k_new f). rewrite R1, M.
  destruct F as (_ & _ & R). now rewrite R.
Qed.
Lemma write_data : forall f, fine f -> data_fine f -> data_fine (write_kdict f).
Proof.
  intros f F D n k I. destruct (reads_grow f F) as [l E]. rewrite E.
  assert (ID : k_data (write_kdict f) = k_data f) by (unfold write_kdict; destruct (k_new f); reflexivity). rewrite ID in I.
  pose proof (D n k I) as X. rewrite nth_error_app1; [exact X|]. apply nth_error_Some. congruence.
Qed.
Lemma set_same : forall f k, k_blocks (set_kdict f k) = k_blocks f /\ k_data (set_kdict f k) = k_data f.
Proof. intros f k. unfold set_kdict. destruct (known _ k); auto. Qed.
Lemma set_all : forall l f, fine f -> Forall plain_name l ->
  fine (fold_left set_kdict l f) /\ k_blocks (fold_left set_kdict l f) = k_blocks f /\ k_data (fold_left set_kdict l f) = k_data f /\
  (forall x, In x (k_map (fold_left set_kdict l f)) <-> In x (k_map f) \/ In x l).
Proof.
  induction l as [|k l IH]; intros f F P; cbn [fold_left]; [split; [exact F|]; split; [reflexivity|]; split; [reflexivity|]; intros; cbn; tauto|].
  inversion P as [|? ? P1 P2]; subst. destruct (set_same f k) as [S1 S2]. destruct (IH _ (set_fine f k F P1) P2) as (A & B & C & D).
  split; [exact A|]. split; [congruence|]. split; [congruence|]. intros x. rewrite D.
  assert (M : In x (k_map (set_kdict f k)) <-> In x (k_map f) \/ x = k).
  { unfold set_kdict. destruct (known (k_map f) k) eqn:E; [apply known_ok in E; split; [auto|intros [H| ->]; auto]|]. cbn [k_map]. rewrite in_app_iff. cbn. intuition congruence. }
  rewrite M. cbn [In]. intuition congruence.
Qed.
Lemma index_nth : forall l k, In k l -> nth_error l (index_of l k) = Some k.
Proof.
  induction l as [|x l IH]; intros k I; [destruct I|]. cbn [index_of]. destruct (list_eq_dec Z.eq_dec x k) as [->|NE]; [reflexivity|].
  cbn. apply IH. destruct I; [congruence|assumption].
Qed.

(** * the store *)
Definition open_file (f : kfile) : Prop := fine f /\ k_new f = [] /\ data_fine f.
Definition closed_file (f : kfile) : Prop := NoDup (read_names (k_blocks f)) /\ Forall plain_name (read_names (k_blocks f)) /\ data_fine f.
Definition order (names : list (list Z)) (s : store) : Prop :=
  fine (s_main s) /\ k_new (s_main s) = [] /\ (forall k, In k names -> In k (k_map (s_main s))) /\
  forall i, if s_open s i then open_file (s_files s i) else closed_file (s_files s i).
Lemma open_closed : forall f, open_file f -> closed_file f.
Proof.
  intros f ((N & P & R) & E & D). rewrite E, app_nil_r in R. unfold closed_file. rewrite R. auto.
Qed.
Lemma name_all : forall l s, 
  s_open (fold_left name_key l s) = s_open s /\ s_main (fold_left name_key l s) = fold_left set_kdict l (s_main s) /\
  forall i, s_files (fold_left name_key l s) i = if s_open s i then fold_left set_kdict l (s_files s i) else s_files s i.
Proof.
  induction l as [|k l IH]; intros s; cbn [fold_left].
  - split; [reflexivity|]. split; [reflexivity|]. intros i. destruct (s_open s i); reflexivity.
  - destruct (IH (name_key s k)) as (A & B & C). split; [rewrite A; reflexivity|]. split; [rewrite B; reflexivity|].
    intros i. rewrite C. cbn [name_key changed s_open s_files]. destruct (s_open s i); reflexivity.
Qed.
Lemma keys_ok : forall names s l, order names s -> Forall plain_name l -> order (names ++ l) (do_keys s l).
Proof.
  intros names s l (M & MN & MI & F) P. unfold do_keys. cbn zeta. destruct (name_all l s) as (A & B & C). unfold order. cbn [s_main s_files s_open].
  rewrite A, B. destruct (set_all l (s_main s) M P) as (S1 & S2 & S3 & S4). destruct (write_fine _ S1) as (W1 & W2 & W3).
  split; [exact W1|]. split; [exact W2|]. split.
  - intros k I. rewrite W3, S4. apply in_app_or in I. destruct I; auto.
  - intros i. specialize (F i). rewrite C. destruct (s_open s i); [|exact F]. destruct F as (F1 & F2 & F3).
    destruct (set_all l (s_files s i) F1 P) as (T1 & T2 & T3 & T4). destruct (write_fine _ T1) as (V1 & V2 & V3).
    split; [exact V1|]. split; [exact V2|]. apply write_data; [exact T1|]. intros n k I. rewrite T2. rewrite T3 in I. now apply F3.
Qed.
Lemma reopen_ok : forall f, closed_file f -> exists f', reopen f = Some f' /\ open_file f'.
Proof.
  intros f (N & P & D). unfold reopen. cbn zeta.
  assert (A : forallb (fun d => known (read_names (k_blocks f)) (snd d)) (k_data f) = true).
  { apply forallb_forall. intros [n k] I. apply known_ok. cbn. exact (nth_error_In _ _ (D n k I)). }
  rewrite A. eexists. split; [reflexivity|]. split; [|split; [reflexivity|exact D]].
  unfold fine. cbn [k_map k_new k_blocks]. rewrite app_nil_r. auto.
Qed.
Lemma write_ok : forall names s k i, order names s -> In k names -> exists s', do_write s k i = Some s' /\ order names s'.
Proof.
  intros names s k i (M & MN & MI & F) I. unfold do_write. cbn zeta.
  assert (B : before_write s k = s) by (unfold before_write; rewrite (proj2 (known_ok _ _) (MI k I)); reflexivity). rewrite B.
  assert (O : exists f, (if s_open s i then Some (s_files s i) else reopen (s_files s i)) = Some f /\ open_file f).
  { specialize (F i). destruct (s_open s i); [eauto|]. now apply reopen_ok. }
  destruct O as (f & -> & (F1 & F2 & F3)). eexists. split; [reflexivity|]. unfold order. cbn [s_main s_files s_open].
  split; [exact M|]. split; [exact MN|]. split; [exact MI|]. intros j. destruct (Nat.eqb j i); [|exact (F j)].
  pose proof M as (_ & MP & _). unfold cmp_kdict.
  assert (FE : mkkf (k_map f) [] (k_blocks f) (k_data f) = f) by (rewrite <- F2; destruct f; reflexivity). rewrite FE.
  destruct (set_all (k_map (s_main s)) f F1 MP) as (T1 & T2 & T3 & T4). destruct (write_fine _ T1) as (V1 & V2 & V3).
  assert (DD : data_fine (write_kdict (fold_left set_kdict (k_map (s_main s)) f))).
  { apply write_data; [exact T1|]. intros n x J. rewrite T2. rewrite T3 in J. now apply F3. }
  split; [exact V1|]. split; [exact V2|]. intros n x J. cbn [k_blocks k_data] in *. apply in_app_or in J. destruct J as [J|[E|[]]]; [now apply DD|].
  injection E as <- <-. destruct V1 as (_ & _ & V1). rewrite V2, app_nil_r in V1. rewrite V1. apply index_nth. rewrite V3. apply T4. right. now apply MI.
Qed.
Lemma close_ok : forall names s, order names s -> order names (do_close s).
Proof.
  intros names s (M & MN & MI & F). unfold do_close. cbn zeta. destruct (write_fine _ M) as ((W1 & W2 & W3) & W4 & W5). rewrite W4, app_nil_r in W3.
  unfold order. cbn [s_main s_files s_open k_map k_new k_blocks]. unfold fine. cbn [k_map k_new k_blocks]. rewrite app_nil_r, W3.
  split; [auto|]. split; [reflexivity|]. split; [intros k I; rewrite W5; now apply MI|].
  intros i. specialize (F i). destruct (s_open s i); [now apply open_closed|exact F].
Qed.
Lemma run_order : forall h names s, order names s -> named_first names h -> Forall plain_name (names_in h) ->
  exists s', krun s h = Some s' /\ exists names', order names' s'.
Proof.
  induction h as [|o h IH]; intros names s O N P; [exists s; split; [reflexivity|eauto]|]. cbn [krun].
  destruct o as [l|k i|]; cbn [kstep named_first names_in flat_map] in *.
  - apply Forall_app in P. destruct P as [P1 P2]. eapply IH; [apply keys_ok; eassumption|exact N|exact P2].
  - destruct N as [N1 N2]. inversion P; subst. destruct (write_ok names s k i O N1) as (s' & -> & O'). eapply IH; eauto.
  - eapply IH; [apply close_ok; exact O|exact N|exact P].
Qed.
