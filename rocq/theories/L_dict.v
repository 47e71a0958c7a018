(** Lemmas for the dictionary. *)
From Verif Require Import Base S_dict M_dict.
From Coq Require Import Permutation ZifyBool ZifyNat.

Section Lists.
Context {A : Type}.
Implicit Types (l : list A).

Lemma upd_split l b c : (b < length l)%nat -> upd l b c = firstn b l ++ c :: skipn (S b) l.
Proof.
  revert b. induction l as [|x l IH]; intros b Hb; simpl in Hb; [lia|].
  destruct b as [|b]; [reflexivity|]. cbn [upd firstn skipn app]. f_equal. apply IH. lia.
Qed.
Lemma upd_length l b c : length (upd l b c) = length l.
Proof. revert b. induction l as [|x l IH]; intros [|b]; simpl; auto. Qed.
Lemma nth_upd_same l b c d : (b < length l)%nat -> nth b (upd l b c) d = c.
Proof. revert b. induction l as [|x l IH]; intros [|b] Hb; simpl in *; try lia; auto. apply IH. lia. Qed.
Lemma nth_upd_other l b j c d : j <> b -> nth j (upd l b c) d = nth j l d.
Proof. revert b j. induction l as [|x l IH]; intros [|b] [|j] Hb; simpl in *; try lia; auto. Qed.
End Lists.

Section Concat.
Context {A : Type}.
Implicit Types (t : list (list A)).
Lemma concat_split t b : (b < length t)%nat ->
  concat t = concat (firstn b t) ++ nth b t [] ++ concat (skipn (S b) t).
Proof.
  revert b. induction t as [|x t IH]; intros b Hb; simpl in Hb; [lia|].
  destruct b as [|b]; [reflexivity|]. cbn [concat firstn skipn nth].
  rewrite (IH b) by lia. now rewrite app_assoc.
Qed.
Lemma concat_upd t b c : (b < length t)%nat ->
  concat (upd t b c) = concat (firstn b t) ++ c ++ concat (skipn (S b) t).
Proof. intros H. rewrite upd_split by trivial. rewrite concat_app. reflexivity. Qed.

Lemma in_concat_nth t e : In e (concat t) -> exists j, (j < length t)%nat /\ In e (nth j t []).
Proof.
  rewrite in_concat. intros (c & Hc & He). apply (In_nth _ _ []) in Hc as (j & Hj & E).
  exists j. split; [trivial|now rewrite E].
Qed.
Lemma nth_in_concat t e j : In e (nth j t []) -> In e (concat t).
Proof.
  intros H. destruct (Nat.lt_ge_cases j (length t)) as [L|L].
  - apply in_concat. exists (nth j t []). split; [now apply nth_In|trivial].
  - rewrite nth_overflow in H by lia. destruct H.
Qed.
Lemma concat_repeat_nil n : concat (repeat (@nil A) n) = [].
Proof. induction n; simpl; auto. Qed.
Lemma nth_repeat_nil n j : nth j (repeat (@nil A) n) [] = [].
Proof. revert j; induction n; intros [|j]; simpl; auto. Qed.
Lemma concat_nonempty t : concat t <> [] -> exists j, (j < length t)%nat /\ nth j t [] <> [].
Proof.
  intros H. destruct (concat t) as [|e r] eqn:E; [congruence|].
  destruct (in_concat_nth t e) as (j & Hj & Hin); [rewrite E; now left|].
  exists j. split; [trivial|]. intros E'. rewrite E' in Hin. destruct Hin.
Qed.
End Concat.

Section Dict.
Context {K V : Type}.
Variable keq : K -> K -> bool.
Variable hash : K -> Z.
Hypothesis KOK : key_ok keq hash.
Notation chain := (list (K * V)).
Notation dht := (@dht K V).
Notation dict := (@dict K V).
Implicit Types (l c : chain) (k : K) (v : V) (h : dht) (d : dict).

Lemma keq_refl a : keq a a = true. Proof. apply KOK. Qed.
Lemma keq_sym a b : keq a b = keq b a. Proof. apply KOK. Qed.
Lemma keq_trans a b (c : K) : keq a b = true -> keq b c = true -> keq a c = true. Proof. apply KOK. Qed.
Lemma keq_hash a b : keq a b = true -> hash a = hash b. Proof. apply KOK. Qed.
Lemma hash_nonneg a : 0 <= hash a. Proof. apply KOK. Qed.

Definition uniq (l : chain) : Prop := ForallOrdPairs (fun a b => keq (fst a) (fst b) = false) l.

Lemma uniq_perm l l' : Permutation l l' -> uniq l -> uniq l'.
Proof.
  unfold uniq. induction 1; intros U; trivial.
  - inversion U as [|? ? F U']; subst. constructor; [|now apply IHPermutation].
    eapply Permutation_Forall; eauto.
  - inversion U as [|? ? F U']; subst. inversion U' as [|? ? F' U'']; subst.
    apply Forall_cons_iff in F as (E & F). constructor; [constructor|constructor]; trivial.
    now rewrite keq_sym.
  - auto.
Qed.
Lemma uniq_app_r l1 l2 : uniq (l1 ++ l2) -> uniq l2.
Proof. induction l1; simpl; trivial. intros U; inversion U; auto. Qed.

Lemma lookup_none l k : lookup keq l k = None <-> Forall (fun e => keq k (fst e) = false) l.
Proof.
  induction l as [|[k' v] l IH]; cbn [lookup]; [split; auto|].
  destruct (keq k k') eqn:E; split; intros H; try congruence.
  - apply Forall_inv in H. cbn in H. congruence.
  - constructor; [trivial|now apply IH].
  - apply IH. now apply Forall_inv_tail in H.
Qed.
Lemma lookup_app l1 l2 k : lookup keq (l1 ++ l2) k =
  match lookup keq l1 k with Some v => Some v | None => lookup keq l2 k end.
Proof. induction l1 as [|[k' v] l IH]; cbn; trivial. destruct (keq k k'); trivial. Qed.
Lemma mem_key_app l1 l2 k : mem_key keq (l1 ++ l2) k = mem_key keq l1 k || mem_key keq l2 k.
Proof. unfold mem_key. rewrite lookup_app. destruct (lookup keq l1 k); reflexivity. Qed.
Lemma mem_key_false l k : mem_key keq l k = false <-> lookup keq l k = None.
Proof. unfold mem_key. destruct (lookup keq l k); split; congruence. Qed.

Lemma lookup_perm l l' k : Permutation l l' -> uniq l -> lookup keq l k = lookup keq l' k.
Proof.
  induction 1 as [|[a v] l l' P IH|[a v] [b w] l|l l' l'' P IH P' IH']; intros U; trivial.
  - cbn. inversion U; subst. now rewrite IH.
  - cbn. inversion U as [|? ? F U']; subst. apply Forall_cons_iff in F as (E & F). cbn in E.
    destruct (keq k a) eqn:Ea, (keq k b) eqn:Eb; trivial.
    exfalso. rewrite (keq_trans b k a) in E; [congruence| |trivial]. now rewrite keq_sym.
  - rewrite IH by trivial. apply IH'. now apply (uniq_perm l).
Qed.
Lemma mem_key_perm l l' k : Permutation l l' -> uniq l -> mem_key keq l k = mem_key keq l' k.
Proof. intros P U. unfold mem_key. now rewrite (lookup_perm l l'). Qed.

Lemma update_keys l k v : map fst (update keq l k v) = map fst l.
Proof. induction l as [|[a w] l IH]; cbn; trivial. destruct (keq k a); cbn; now f_equal. Qed.
Lemma uniq_keys l l' : map fst l = map fst l' -> uniq l -> uniq l'.
Proof.
  revert l'. induction l as [|[a w] l IH]; intros [|[b x] l'] E U; try discriminate; [constructor|].
  inversion E; subst. inversion U as [|? ? F U']; subst. constructor; [|now apply IH].
  clear - F H1. cbn in *. revert l' H1. induction l as [|y l IH]; intros [|z l'] E; try discriminate; constructor.
  - inversion E. apply Forall_inv in F. congruence.
  - inversion E. apply IH; trivial. now apply Forall_inv_tail in F.
Qed.
Lemma uniq_update l k v : uniq l -> uniq (update keq l k v).
Proof. intros U. apply (uniq_keys l); trivial. now rewrite update_keys. Qed.
Lemma remove_incl l k e : In e (remove keq l k) -> In e l.
Proof. induction l as [|[a w] l IH]; cbn; trivial. destruct (keq k a); cbn; intuition. Qed.
Lemma uniq_remove l k : uniq l -> uniq (remove keq l k).
Proof.
  induction l as [|[a w] l IH]; cbn; trivial. intros U. inversion U as [|? ? F U']; subst.
  destruct (keq k a); trivial. constructor; [|now apply IH].
  apply Forall_forall. intros e He. rewrite Forall_forall in F. apply F. eapply remove_incl; eauto.
Qed.

Lemma update_app_l l1 l2 k v : lookup keq l1 k = None -> update keq (l1 ++ l2) k v = l1 ++ update keq l2 k v.
Proof. induction l1 as [|[a w] l IH]; cbn; trivial. destruct (keq k a); [discriminate|]. intros; f_equal; auto. Qed.
Lemma update_app_r l1 l2 k v : mem_key keq l1 k = true -> update keq (l1 ++ l2) k v = update keq l1 k v ++ l2.
Proof.
  unfold mem_key. induction l1 as [|[a w] l IH]; cbn; [discriminate|].
  destruct (keq k a); trivial. intros; cbn; f_equal; auto.
Qed.
Lemma remove_app_l l1 l2 k : lookup keq l1 k = None -> remove keq (l1 ++ l2) k = l1 ++ remove keq l2 k.
Proof. induction l1 as [|[a w] l IH]; cbn; trivial. destruct (keq k a); [discriminate|]. intros; f_equal; auto. Qed.
Lemma remove_app_r l1 l2 k : mem_key keq l1 k = true -> remove keq (l1 ++ l2) k = remove keq l1 k ++ l2.
Proof.
  unfold mem_key. induction l1 as [|[a w] l IH]; cbn; [discriminate|].
  destruct (keq k a); trivial. intros; cbn; f_equal; auto.
Qed.
Lemma remove_length l k : mem_key keq l k = true -> S (length (remove keq l k)) = length l.
Proof.
  unfold mem_key. induction l as [|[a w] l IH]; cbn; [discriminate|].
  destruct (keq k a); trivial. intros; cbn; f_equal; auto.
Qed.
Lemma update_length l k v : length (update keq l k v) = length l.
Proof. rewrite <- (map_length fst), update_keys. apply map_length. Qed.

Lemma perm_update l l' k v : Permutation l l' -> uniq l -> Permutation (update keq l k v) (update keq l' k v).
Proof.
  induction 1 as [|[a u] l l' P IH|[a u] [b w] l|l l' l'' P IH P' IH']; intros U; trivial.
  - cbn. inversion U; subst. destruct (keq k a); constructor; auto.
  - cbn. inversion U as [|? ? F U']; subst. apply Forall_cons_iff in F as (E & F). cbn in E.
    destruct (keq k a) eqn:Ea, (keq k b) eqn:Eb; try apply perm_swap.
    exfalso. rewrite (keq_trans b k a) in E; [congruence| |trivial]. now rewrite keq_sym.
  - etransitivity; [now apply IH|]. apply IH'. now apply (uniq_perm l).
Qed.
Lemma perm_remove l l' k : Permutation l l' -> uniq l -> Permutation (remove keq l k) (remove keq l' k).
Proof.
  induction 1 as [|[a u] l l' P IH|[a u] [b w] l|l l' l'' P IH P' IH']; intros U; trivial.
  - cbn. inversion U; subst. destruct (keq k a); [trivial|constructor; auto].
  - cbn. inversion U as [|? ? F U']; subst. apply Forall_cons_iff in F as (E & F). cbn in E.
    destruct (keq k a) eqn:Ea, (keq k b) eqn:Eb; try reflexivity; try apply perm_swap.
    exfalso. rewrite (keq_trans b k a) in E; [congruence| |trivial]. now rewrite keq_sym.
  - etransitivity; [now apply IH|]. apply IH'. now apply (uniq_perm l).
Qed.

(** * tables *)
Definition ents (h : dht) : chain := concat (tbl h).
Definition dents (d : dict) : chain := ents (h0 d) ++ ents (h1 d).

Definition placed (h : dht) : Prop := forall j e, In e (nth j (tbl h) []) -> j = bucket h (hash (fst e)).
Definition pow2 (n : Z) : Prop := exists m, 0 <= m /\ n = 2 ^ m.
Definition hinv (h : dht) : Prop :=
  used h = Z.of_nat (length (ents h)) /\ (tbl h = [] \/ pow2 (hsize h)) /\ placed h.

Lemma hinv_reset : hinv (hreset (K:=K) (V:=V)).
Proof. split; [reflexivity|]. split; [now left|]. intros [|j] e []. Qed.

Lemma pow2_pos n : pow2 n -> 0 < n.
Proof. intros (k & Hk & ->). apply Z.pow_pos_nonneg; lia. Qed.
Lemma bucket_lt h k : pow2 (hsize h) -> (bucket h (hash k) < length (tbl h))%nat.
Proof.
  intros P. pose proof (pow2_pos _ P) as Hp. destruct P as (n & Hn & E).
  unfold bucket, hmask. destruct (Z.eqb_spec (hsize h) 0); [lia|].
  replace (hsize h - 1) with (Z.ones n) by (rewrite Z.ones_equiv; lia).
  rewrite Z.land_ones by lia. rewrite <- E.
  pose proof (Z.mod_pos_bound (hash k) (hsize h) Hp). unfold hsize in *. lia.
Qed.

Lemma lookup_concat t b k : (forall j, j <> b -> lookup keq (nth j t []) k = None) ->
  lookup keq (@concat (K * V) t) k = lookup keq (nth b t []) k.
Proof.
  revert b. induction t as [|c t IH]; intros b H; [now destruct b|].
  cbn [concat]. rewrite lookup_app. destruct b as [|b].
  - cbn [nth]. destruct (lookup keq c k); trivial.
    destruct (lookup keq (concat t) k) eqn:E; trivial. exfalso.
    assert (N : lookup keq (concat t) k = None); [|congruence].
    apply lookup_none, Forall_forall. intros e He. apply in_concat_nth in He as (j & Hj & He).
    specialize (H (S j) ltac:(lia)). cbn in H. apply lookup_none in H.
    rewrite Forall_forall in H. auto.
  - specialize (H O ltac:(lia)) as H0. cbn in H0. rewrite H0. cbn [nth]. apply IH.
    intros j Hj. apply (H (S j)). lia.
Qed.
Lemma placed_other h k j : placed h -> j <> bucket h (hash k) -> lookup keq (nth j (tbl h) []) k = None.
Proof.
  intros P Hj. apply lookup_none, Forall_forall. intros e He. apply P in He.
  destruct (keq k (fst e)) eqn:E; trivial. apply keq_hash in E. rewrite E in Hj. contradiction.
Qed.
Lemma chain_of_spec h k : pow2 (hsize h) -> placed h ->
  exists c, chain_of h (hash k) = Some c /\ c = nth (bucket h (hash k)) (tbl h) [] /\
            lookup keq c k = lookup keq (ents h) k.
Proof.
  intros P Q. pose proof (bucket_lt h k P) as B.
  destruct (nth_error (tbl h) (bucket h (hash k))) as [c|] eqn:E.
  - exists c. pose proof (nth_error_nth _ _ [] E) as N. split; [trivial|]. split; [now symmetry|].
    unfold ents. rewrite (lookup_concat _ (bucket h (hash k))); [now rewrite N|].
    intros j Hj. now apply placed_other.
  - apply nth_error_None in E. lia.
Qed.

(** inserting in front *)
Lemma put_front_spec h e : hinv h -> pow2 (hsize h) ->
  exists h', put_front hash h e = Some h' /\ hinv h' /\ hsize h' = hsize h /\ Permutation (ents h') (e :: ents h).
Proof.
  intros (U & _ & P) Q. pose proof (bucket_lt h (fst e) Q) as B. unfold put_front.
  set (b := bucket h (hash (fst e))) in *.
  destruct (nth_error (tbl h) b) as [c|] eqn:E; [|apply nth_error_None in E; lia].
  pose proof (nth_error_nth _ _ [] E) as N.
  assert (HS : hsize (mkht (upd (tbl h) b (e :: c)) (used h + 1)) = hsize h)
    by (unfold hsize; cbn; now rewrite upd_length).
  assert (PE : Permutation (ents (mkht (upd (tbl h) b (e :: c)) (used h + 1))) (e :: ents h)).
  { unfold ents. cbn [tbl]. rewrite concat_upd by trivial. rewrite (concat_split (tbl h) b) by trivial.
    rewrite N. cbn [app]. symmetry. apply Permutation_middle. }
  eexists. split; [reflexivity|]. split; [|split; trivial].
  split; [|split].
  - cbn [used]. apply Permutation_length in PE. rewrite PE. cbn [length]. lia.
  - right. now rewrite HS.
  - intros j x Hx. unfold bucket, hmask. rewrite HS. fold (hmask h). fold (bucket h (hash (fst x))).
    cbn [tbl] in Hx. destruct (Nat.eq_dec j b) as [->|Hj].
    + rewrite nth_upd_same in Hx by trivial. destruct Hx as [<-|Hx]; [reflexivity|].
      apply P. now rewrite N.
    + rewrite nth_upd_other in Hx by trivial. now apply P.
Qed.
Lemma move_chain_spec c : forall h, hinv h -> pow2 (hsize h) ->
  exists h', move_chain hash h c = Some h' /\ hinv h' /\ hsize h' = hsize h /\ Permutation (ents h') (c ++ ents h).
Proof.
  induction c as [|e c IH]; intros h I P; cbn [move_chain].
  - exists h. auto.
  - destruct (put_front_spec h e I P) as (h1 & -> & I1 & S1 & P1).
    destruct (IH h1 I1 ltac:(now rewrite S1)) as (h2 & -> & I2 & S2 & P2).
    exists h2. split; [trivial|]. split; [trivial|]. split; [congruence|].
    rewrite P2, P1. cbn [app]. symmetry. apply Permutation_middle.
Qed.

(** replacing one chain *)
Lemma map_chain_spec h k f n :
  hinv h -> pow2 (hsize h) ->
  (forall c e, In e (f c) -> exists e', In e' c /\ fst e' = fst e) ->
  Z.of_nat (length (f (nth (bucket h (hash k)) (tbl h) []))) = Z.of_nat (length (nth (bucket h (hash k)) (tbl h) [])) + n ->
  exists A B, ents h = A ++ nth (bucket h (hash k)) (tbl h) [] ++ B /\
    ents (map_chain h (hash k) f n) = A ++ f (nth (bucket h (hash k)) (tbl h) []) ++ B /\
    lookup keq A k = None /\
    hinv (map_chain h (hash k) f n) /\ hsize (map_chain h (hash k) f n) = hsize h.
Proof.
  intros (U & _ & P) Q F L. pose proof (bucket_lt h k Q) as B. set (b := bucket h (hash k)) in *.
  exists (concat (firstn b (tbl h))), (concat (skipn (S b) (tbl h))).
  assert (HS : hsize (map_chain h (hash k) f n) = hsize h)
    by (unfold hsize, map_chain; cbn; now rewrite upd_length).
  assert (E1 : ents h = concat (firstn b (tbl h)) ++ nth b (tbl h) [] ++ concat (skipn (S b) (tbl h)))
    by (apply concat_split; trivial).
  assert (E2 : ents (map_chain h (hash k) f n) =
    concat (firstn b (tbl h)) ++ f (nth b (tbl h) []) ++ concat (skipn (S b) (tbl h)))
    by (unfold ents, map_chain; cbn [tbl]; now apply concat_upd).
  split; [trivial|]. split; [trivial|]. split; [|split; trivial].
  - apply lookup_none, Forall_forall. intros e He. apply in_concat_nth in He as (j & Hj & He).
    rewrite firstn_length in Hj.
    assert (He' : In e (nth j (tbl h) [])).
    { rewrite <- (firstn_skipn b (tbl h)). rewrite app_nth1; [trivial|]. rewrite firstn_length. lia. }
    apply P in He'. destruct (keq k (fst e)) eqn:E; trivial. apply keq_hash in E.
    fold b in He'. rewrite <- E in He'. fold b in He'. lia.
  - split; [|split].
    + unfold map_chain at 1. cbn [used]. rewrite E2. rewrite !app_length. rewrite E1, !app_length in U. lia.
    + right. now rewrite HS.
    + intros j x Hx. unfold bucket, hmask. rewrite HS. fold (hmask h). fold (bucket h (hash (fst x))).
      unfold map_chain in Hx. cbn [tbl] in Hx. fold b in Hx. destruct (Nat.eq_dec j b) as [->|Hj].
      * rewrite nth_upd_same in Hx by trivial. apply F in Hx as (e' & He' & <-). now apply P.
      * rewrite nth_upd_other in Hx by trivial. now apply P.
Qed.

(** * the dictionary *)
Definition ridx_ok (d : dict) : Prop :=
  (ridx d = -1 /\ h1 d = hreset) \/
  (0 <= ridx d <= hsize (h0 d) /\ pow2 (hsize (h0 d)) /\ pow2 (hsize (h1 d)) /\
   forall j, (Z.of_nat j < ridx d) -> nth j (tbl (h0 d)) [] = []).
Definition dinv (d : dict) : Prop :=
  hinv (h0 d) /\ hinv (h1 d) /\ uniq (dents d) /\ ridx_ok d.

Lemma dinv_create : dinv dcreate.
Proof.
  split; [apply hinv_reset|]. split; [apply hinv_reset|]. split; [constructor|]. now left.
Qed.

Lemma rehashing_true d : ridx_ok d -> rehashing d = true ->
  0 <= ridx d <= hsize (h0 d) /\ pow2 (hsize (h0 d)) /\ pow2 (hsize (h1 d)) /\
  forall j, (Z.of_nat j < ridx d) -> nth j (tbl (h0 d)) [] = [].
Proof. unfold rehashing. intros [(E & _)|H]; [rewrite E; discriminate|trivial]. Qed.
Lemma rehashing_false d : ridx_ok d -> rehashing d = false -> ridx d = -1 /\ h1 d = hreset.
Proof. unfold rehashing. intros [H|(H & _)] R; [trivial|]. lia. Qed.

Lemma seek_spec t : forall (l : nat) i, (exists j, (i <= j < length t)%nat /\ nth j t [] <> []) ->
  exists r, @seek K V t i (S l) = Some r /\
  match r with
  | inl i' => (i < i' <= length t)%nat /\ forall j, (i <= j < i')%nat -> nth j t [] = []
  | inr i' => (i <= i' < length t)%nat /\ forall j, (i <= j < i')%nat -> nth j t [] = []
  end.
Proof.
  induction l as [|l IH]; intros i (j & Hj & Nj); cbn [seek];
    (destruct (nth_error t i) as [[|e c]|] eqn:E; [| |apply nth_error_None in E; lia]);
    pose proof (nth_error_nth _ _ [] E) as N.
  - eexists. split; [reflexivity|]. split; [lia|]. intros m Hm. replace m with i by lia. trivial.
  - eexists. split; [reflexivity|]. split; [lia|]. intros m Hm. lia.
  - destruct (IH (S i)) as (r & Hr & Q).
    { exists j. split; [|trivial]. destruct (Nat.eq_dec i j); [congruence|lia]. }
    exists r. split; [exact Hr|]. destruct r as [i'|i']; destruct Q as (Q1 & Q2); (split; [lia|]);
      intros m Hm; (destruct (Nat.eq_dec m i) as [->|]; [trivial|apply Q2; lia]).
  - eexists. split; [reflexivity|]. split; [lia|]. intros m Hm. lia.
Qed.

Lemma used_zero h : hinv h -> used h = 0 -> ents h = [].
Proof. intros (U & _) E. rewrite E in U. destruct (ents h); trivial. cbn in U. lia. Qed.

Definition same (d d' : dict) : Prop := iters d' = iters d /\ can d' = can d.

Lemma finish_spec d : dinv d -> rehashing d = true ->
  dinv (finish d) /\ Permutation (dents (finish d)) (dents d) /\ same d (finish d).
Proof.
  intros (I0 & I1 & U & R) Rh. destruct (rehashing_true d R Rh) as (Rb & P0 & P1 & Emp).
  unfold finish. destruct (Z.eqb_spec (used (h0 d)) 0) as [E|E].
  - apply used_zero in E; trivial. unfold dents at 1. cbn [h0 h1].
    assert (Q : dents d = ents (h1 d)) by (unfold dents; now rewrite E).
    split; [|split].
    + split; [trivial|]. split; [apply hinv_reset|]. split; [|now left].
      unfold dents; cbn [h0 h1]. cbn. rewrite app_nil_r. now rewrite <- Q.
    + rewrite Q. cbn. now rewrite app_nil_r.
    + split; reflexivity.
  - split; [repeat split; trivial; apply I0 || apply I1|]. split; [reflexivity|split; reflexivity].
Qed.

Lemma rehash1_spec d : dinv d -> rehashing d = true ->
  exists d', rehash1 hash d = Some d' /\ dinv d' /\ Permutation (dents d') (dents d) /\ same d d'.
Proof.
  intros D Rh. pose proof D as (I0 & I1 & U & R). destruct (rehashing_true d R Rh) as (Rb & P0 & P1 & Emp).
  unfold rehash1. destruct (Z.eqb_spec (used (h0 d)) 0) as [E|E].
  { exists (finish d). split; [reflexivity|]. now apply finish_spec. }
  assert (NE : ents (h0 d) <> []).
  { intros X. destruct I0 as (X0 & _). rewrite X in X0. cbn in X0. lia. }
  apply concat_nonempty in NE as (j & Hj & Nj).
  assert (Rj : ridx d <= Z.of_nat j).
  { destruct (Z.lt_ge_cases (Z.of_nat j) (ridx d)); [|trivial]. now rewrite Emp in Nj by trivial. }
  destruct (Z.leb_spec (hsize (h0 d)) (ridx d)) as [B|B]; [unfold hsize in B; lia|].
  destruct (seek_spec (tbl (h0 d)) 9 (Z.to_nat (ridx d))) as (r & -> & Q).
  { exists j. split; [lia|trivial]. }
  destruct r as [i|i]; destruct Q as (Qi & Qe).
  - eexists. split; [reflexivity|]. split; [|split; [reflexivity|split; reflexivity]].
    split; [trivial|]. split; [trivial|]. split; [exact U|]. right. cbn [ridx h0 h1].
    split; [unfold hsize; lia|]. split; [trivial|]. split; [trivial|].
    intros m Hm. destruct (Z.lt_ge_cases (Z.of_nat m) (ridx d)); [now apply Emp|]. apply Qe. lia.
  - set (c := nth i (tbl (h0 d)) []).
    destruct (move_chain_spec c (h1 d) I1 P1) as (h1' & -> & I1' & S1 & PM).
    set (d1 := mkd (mkht (upd (tbl (h0 d)) i []) (used (h0 d) - Z.of_nat (length c))) h1' (Z.of_nat i + 1) (iters d) (can d)).
    assert (HS : hsize (h0 d1) = hsize (h0 d)) by (unfold hsize; cbn; now rewrite upd_length).
    assert (Hi : (i < length (tbl (h0 d)))%nat) by lia.
    assert (PE : Permutation (dents d1) (dents d)).
    { unfold dents. cbn [h0 h1 d1]. rewrite PM. unfold ents at 1 3. cbn [tbl].
      rewrite concat_upd by trivial. rewrite (concat_split (tbl (h0 d)) i) by trivial. fold c. cbn [app].
      rewrite <- !app_assoc. apply Permutation_app_head. rewrite !app_assoc.
      apply Permutation_app_tail. apply Permutation_app_comm. }
    assert (D1 : dinv d1).
    { split; [|split; [exact I1'|split]].
      - split; [|split].
        + cbn [h0 d1 used]. destruct I0 as (X & _). rewrite X. unfold ents. cbn [tbl].
          rewrite concat_upd by trivial. rewrite (concat_split (tbl (h0 d)) i) by trivial. fold c.
          rewrite !app_length. cbn [length]. lia.
        + right. now rewrite HS.
        + intros m x Hx. unfold bucket, hmask. rewrite HS. fold (hmask (h0 d)).
          fold (bucket (h0 d) (hash (fst x))). cbn [h0 d1 tbl] in Hx.
          destruct (Nat.eq_dec m i) as [->|Hm].
          * rewrite nth_upd_same in Hx by trivial. destruct Hx.
          * rewrite nth_upd_other in Hx by trivial. now apply I0.
      - eapply uniq_perm; [symmetry; exact PE|trivial].
      - right. rewrite HS. cbn [ridx d1 h1 h0]. split; [unfold hsize; lia|]. split; [trivial|].
        split; [now rewrite S1|]. intros m Hm. cbn [tbl].
        destruct (Nat.eq_dec m i) as [->|Hm']; [now apply nth_upd_same|].
        rewrite nth_upd_other by trivial.
        destruct (Z.lt_ge_cases (Z.of_nat m) (ridx d)); [now apply Emp|]. apply Qe. lia. }
    exists (finish d1). split; [reflexivity|].
    destruct (finish_spec d1 D1) as (F1 & F2 & F3).
    { unfold rehashing. cbn [ridx d1]. lia. }
    split; [trivial|]. split; [now rewrite F2|]. split; apply F3.
Qed.

Lemma rstep_spec d : dinv d ->
  exists d', rstep hash d = Some d' /\ dinv d' /\ Permutation (dents d') (dents d) /\ same d d'.
Proof.
  intros D. unfold rstep. destruct (rehashing d) eqn:R.
  - destruct (iters d =? 0); [now apply rehash1_spec|].
    exists d. split; [trivial|]. split; [trivial|]. split; [reflexivity|split; reflexivity].
  - exists d. split; [trivial|]. split; [trivial|]. split; [reflexivity|split; reflexivity].
Qed.

Lemma dsize_dents d : dinv d -> dsize d = Z.of_nat (length (dents d)).
Proof.
  intros ((U0 & _) & (U1 & _) & _). unfold dsize, dents. rewrite app_length, U0, U1. lia.
Qed.

Lemma npow_spec f : forall i size, 0 < i -> size <= i * 2 ^ Z.of_nat f ->
  exists m, 0 <= m /\ npow f i size = i * 2 ^ m /\ size <= npow f i size.
Proof.
  induction f as [|f IH]; intros i size Hi Hs; cbn [npow].
  - exists 0. change (2 ^ 0) with 1. cbn in Hs. split; [lia|]. split; lia.
  - destruct (Z.leb_spec size i).
    + exists 0. change (2 ^ 0) with 1. split; [lia|]. split; lia.
    + destruct (IH (i * 2) size) as (m & Hm & E & L); [lia| |].
      * rewrite Nat2Z.inj_succ, Z.pow_succ_r in Hs by lia. lia.
      * exists (m + 1). split; [lia|]. split; [|trivial]. rewrite E. rewrite Z.pow_add_r by lia.
        change (2 ^ 1) with 2. ring.
Qed.
Lemma next_power_spec size : size <= 2 ^ 62 -> pow2 (next_power size) /\ size <= next_power size /\ 4 <= next_power size.
Proof.
  intros H. destruct (npow_spec 64 4 size) as (m & Hm & E & L); [lia| |].
  - change (4 * 2 ^ Z.of_nat 64) with 73786976294838206464. change (2 ^ 62) with 4611686018427387904 in H. lia.
  - unfold next_power. split; [|split; [trivial|]].
    + exists (m + 2). split; [lia|]. rewrite E, Z.pow_add_r by lia. change (2 ^ 2) with 4. ring.
    + rewrite E. assert (0 < 2 ^ m) by (apply Z.pow_pos_nonneg; lia). lia.
Qed.

Lemma hinv_new n : pow2 n -> hinv (mkht (repeat ([] : chain) (Z.to_nat n)) 0) /\
  hsize (mkht (repeat ([] : chain) (Z.to_nat n)) 0) = n.
Proof.
  intros P. assert (HS : hsize (mkht (repeat ([] : chain) (Z.to_nat n)) 0) = n).
  { unfold hsize; cbn [tbl]. rewrite repeat_length. apply pow2_pos in P. lia. }
  split; [|trivial]. split; [|split].
  - unfold ents. cbn [tbl used]. rewrite concat_repeat_nil. reflexivity.
  - right. now rewrite HS.
  - intros j e He. cbn [tbl] in He. rewrite nth_repeat_nil in He. destruct He.
Qed.

Lemma expand_spec d n : dinv d -> n <= 2 ^ 62 ->
  dinv (fst (expand d n)) /\ dents (fst (expand d n)) = dents d /\ same d (fst (expand d n)).
Proof.
  intros D Hn. pose proof D as (I0 & I1 & U & R). unfold expand.
  destruct (rehashing d || (n <? used (h0 d))) eqn:C; [split; [trivial|split; [trivial|split; trivial]]|].
  apply orb_false_iff in C as (C & _). destruct (rehashing_false d R C) as (Ri & E1).
  destruct (Z.eqb_spec (next_power n) (hsize (h0 d))); [split; [trivial|split; [trivial|split; trivial]]|].
  destruct (next_power_spec n Hn) as (P & _ & _). destruct (hinv_new _ P) as (IN & SN).
  set (nh := mkht (repeat ([] : chain) (Z.to_nat (next_power n))) 0) in *.
  assert (EN : ents nh = []) by (unfold ents, nh; cbn [tbl]; apply concat_repeat_nil).
  destruct (Z.eqb_spec (hsize (h0 d)) 0) as [Z0|Z0]; cbn [fst].
  - assert (T0 : ents (h0 d) = []).
    { unfold ents. unfold hsize in Z0. destruct (tbl (h0 d)); [trivial|cbn in Z0; lia]. }
    assert (DE : dents (mkd nh (h1 d) (ridx d) (iters d) (can d)) = dents d).
    { unfold dents. cbn [h0 h1]. now rewrite EN, T0. }
    split; [|split; [trivial|split; reflexivity]].
    split; [trivial|]. split; [trivial|]. split; [now rewrite DE|]. left. now split.
  - assert (DE : dents (mkd (h0 d) nh 0 (iters d) (can d)) = dents d).
    { unfold dents. cbn [h0 h1]. rewrite EN, E1. reflexivity. }
    split; [|split; [trivial|split; reflexivity]].
    split; [trivial|]. split; [trivial|]. split; [now rewrite DE|]. right. cbn [ridx h0 h1].
    split; [unfold hsize; lia|]. split.
    { destruct I0 as (_ & [X|X] & _); trivial. exfalso. apply Z0. unfold hsize. now rewrite X. }
    split; [now rewrite SN|]. intros j Hj. lia.
Qed.

Lemma expand_needed_spec d : dinv d -> Z.of_nat (length (dents d)) < 2 ^ 60 ->
  exists d', expand_if_needed d = (d', true) /\ dinv d' /\ dents d' = dents d /\ same d d' /\ pow2 (hsize (h0 d')).
Proof.
  intros D L. pose proof D as (I0 & I1 & U & R).
  assert (Ub : 0 <= used (h0 d) < 2 ^ 60).
  { destruct I0 as (X & _). unfold dents in L. rewrite app_length in L. lia. }
  change (2 ^ 60) with 1152921504606846976 in Ub. clear L.
  unfold expand_if_needed. destruct (rehashing d) eqn:C.
  { exists d. destruct (rehashing_true d R C) as (_ & P & _).
    split; [trivial|]. split; [trivial|]. split; [trivial|]. split; [split; trivial|trivial]. }
  destruct (rehashing_false d R C) as (Ri & E1).
  assert (G : forall n, used (h0 d) <= n <= 2 ^ 62 -> next_power n <> hsize (h0 d) ->
    exists d', expand d n = (d', true) /\ dinv d' /\ dents d' = dents d /\ same d d' /\ pow2 (hsize (h0 d'))).
  { intros n Hn Ne. destruct (expand_spec d n D ltac:(lia)) as (Q1 & Q2 & Q3).
    revert Q1 Q2 Q3. unfold expand. rewrite C. cbn [orb].
    destruct (Z.ltb_spec n (used (h0 d))); [lia|].
    destruct (Z.eqb_spec (next_power n) (hsize (h0 d))); [contradiction|].
    destruct (next_power_spec n ltac:(lia)) as (P & _ & _). destruct (hinv_new _ P) as (IN & SN).
    destruct (Z.eqb_spec (hsize (h0 d)) 0) as [Z0|Z0]; cbn [fst]; intros Q1 Q2 Q3;
      eexists; (split; [reflexivity|]); (split; [exact Q1|]); (split; [exact Q2|]); (split; [exact Q3|]).
    - cbn [h0]. now rewrite SN.
    - cbn [h0]. destruct I0 as (_ & [X|X] & _); trivial. exfalso. apply Z0. unfold hsize. now rewrite X. }
  destruct (Z.eqb_spec (hsize (h0 d)) 0) as [Z0|Z0].
  - apply G.
    + assert (T0 : used (h0 d) = 0).
      { destruct I0 as (X & _). rewrite X. unfold ents. unfold hsize in Z0. destruct (tbl (h0 d)); [reflexivity|cbn in Z0; lia]. }
      change (2 ^ 62) with 4611686018427387904. lia.
    + change (next_power 4) with 4. lia.
  - assert (P : pow2 (hsize (h0 d))).
    { destruct I0 as (_ & [X|X] & _); trivial. exfalso. apply Z0. unfold hsize. now rewrite X. }
    destruct (Z.leb_spec (hsize (h0 d)) (used (h0 d))) as [B|B]; cbn [andb].
    + destruct (can d || (5 <? used (h0 d) / hsize (h0 d))).
      * apply G; [change (2 ^ 62) with 4611686018427387904; lia|].
        destruct (next_power_spec (used (h0 d) * 2)) as (_ & N & _); [change (2 ^ 62) with 4611686018427387904; lia|].
        apply pow2_pos in P. lia.
      * exists d. split; [trivial|]. split; [trivial|]. split; [trivial|]. split; [split; trivial|trivial].
    + exists d. split; [trivial|]. split; [trivial|]. split; [trivial|]. split; [split; trivial|trivial].
Qed.

(** where a key is found *)
Lemma two_tables d k : dinv d -> pow2 (hsize (h0 d)) ->
  exists c0, chain_of (h0 d) (hash k) = Some c0 /\ lookup keq c0 k = lookup keq (ents (h0 d)) k /\
    c0 = nth (bucket (h0 d) (hash k)) (tbl (h0 d)) [] /\
  if rehashing d then exists c1, chain_of (h1 d) (hash k) = Some c1 /\
       lookup keq c1 k = lookup keq (ents (h1 d)) k /\ pow2 (hsize (h1 d)) /\
       c1 = nth (bucket (h1 d) (hash k)) (tbl (h1 d)) []
  else ents (h1 d) = [].
Proof.
  intros (I0 & I1 & U & R) P.
  destruct (chain_of_spec (h0 d) k P ltac:(apply I0)) as (c0 & C0 & N0 & L0).
  exists c0. split; [trivial|]. split; [trivial|]. split; [trivial|]. destruct (rehashing d) eqn:C.
  - destruct (rehashing_true d R C) as (_ & _ & P1 & _).
    destruct (chain_of_spec (h1 d) k P1 ltac:(apply I1)) as (c1 & C1 & N1 & L1).
    exists c1. auto.
  - destruct (rehashing_false d R C) as (_ & ->). reflexivity.
Qed.
Lemma size_pow d : dinv d -> dsize d <> 0 -> pow2 (hsize (h0 d)).
Proof.
  intros (I0 & I1 & U & R) N. destruct I0 as (U0 & [E|P] & _); trivial. exfalso.
  destruct R as [(_ & E1)|(_ & P & _)].
  - apply N. unfold dsize. rewrite U0, E1. unfold ents. rewrite E. reflexivity.
  - apply pow2_pos in P. unfold hsize in P. rewrite E in P. cbn in P. lia.
Qed.
Lemma size_zero d : dinv d -> dsize d = 0 -> dents d = [].
Proof. intros D E. rewrite dsize_dents in E by trivial. destruct (dents d); [trivial|cbn in E; lia]. Qed.
Lemma same_trans d1 d2 d3 : same d1 d2 -> same d2 d3 -> same d1 d3.
Proof. intros (A & B) (C & E). split; congruence. Qed.

Lemma dfind_spec d k : dinv d ->
  exists d', dfind keq hash d k = Some (d', lookup keq (dents d) k) /\ dinv d' /\
             Permutation (dents d') (dents d) /\ same d d'.
Proof.
  intros D. unfold dfind. destruct (Z.eqb_spec (dsize d) 0) as [E|E].
  - exists d. rewrite (size_zero d D E). cbn.
    split; [reflexivity|]. split; [trivial|]. split; [reflexivity|split; reflexivity].
  - destruct (rstep_spec d D) as (d1 & -> & D1 & P1 & S1).
    rewrite (lookup_perm (dents d) (dents d1)); [|now symmetry|apply D].
    assert (E1 : dsize d1 <> 0).
    { rewrite dsize_dents in * by trivial. apply Permutation_length in P1. lia. }
    destruct (two_tables d1 k D1 (size_pow d1 D1 E1)) as (c0 & -> & L0 & _ & T).
    exists d1. unfold dents at 1. rewrite lookup_app, <- L0.
    split; [|split; [trivial|split; trivial]].
    destruct (lookup keq c0 k) as [v|]; [reflexivity|].
    destruct (rehashing d1).
    + destruct T as (c1 & -> & -> & _). reflexivity.
    + rewrite T. reflexivity.
Qed.

Lemma key_index_spec d k : dinv d -> Z.of_nat (length (dents d)) < 2 ^ 60 ->
  exists d' p, key_index keq hash d k = Some (d', p) /\ dinv d' /\ dents d' = dents d /\ same d d' /\
    pow2 (hsize (h0 d')) /\
    match p with
    | KError => False
    | KAbsent => mem_key keq (dents d) k = false
    | KIn false => mem_key keq (nth (bucket (h0 d') (hash k)) (tbl (h0 d')) []) k = true
    | KIn true => lookup keq (ents (h0 d')) k = None /\ pow2 (hsize (h1 d')) /\
                  mem_key keq (nth (bucket (h1 d') (hash k)) (tbl (h1 d')) []) k = true
    end.
Proof.
  intros D L. destruct (expand_needed_spec d D L) as (d1 & E & D1 & DE & S1 & P1).
  unfold key_index. rewrite E. cbn [negb].
  destruct (two_tables d1 k D1 P1) as (c0 & -> & L0 & N0 & T).
  destruct (mem_key keq c0 k) eqn:M0.
  { exists d1, (KIn false). split; [reflexivity|]. split; [trivial|]. split; [trivial|]. split; [trivial|].
    split; [trivial|]. now rewrite <- N0. }
  apply mem_key_false in M0. rewrite M0 in L0. symmetry in L0.
  destruct (rehashing d1).
  - destruct T as (c1 & -> & L1 & Q1 & N1). destruct (mem_key keq c1 k) eqn:M1.
    + exists d1, (KIn true). split; [reflexivity|]. split; [trivial|]. split; [trivial|]. split; [trivial|].
      split; [trivial|]. split; [trivial|]. split; [trivial|]. now rewrite <- N1.
    + exists d1, KAbsent. split; [reflexivity|]. split; [trivial|]. split; [trivial|]. split; [trivial|].
      split; [trivial|]. rewrite <- DE. unfold dents. rewrite mem_key_app.
      apply mem_key_false in M1. rewrite M1 in L1. unfold mem_key. now rewrite L0, <- L1.
  - exists d1, KAbsent. split; [reflexivity|]. split; [trivial|]. split; [trivial|]. split; [trivial|].
    split; [trivial|]. rewrite <- DE. unfold dents. rewrite T, app_nil_r. unfold mem_key. now rewrite L0.
Qed.

Lemma uniq_cons l k v : uniq l -> mem_key keq l k = false -> uniq ((k, v) :: l).
Proof. intros U M. constructor; [|trivial]. apply mem_key_false, lookup_none in M. exact M. Qed.

Lemma hinv_h1_h0 d h : dinv d -> hsize h = hsize (h0 d) -> hinv h -> uniq (ents h ++ ents (h1 d)) ->
  (forall j, Z.of_nat j < ridx d -> nth j (tbl (h0 d)) [] = [] -> nth j (tbl h) [] = []) -> dinv (set_h0 d h).
Proof.
  intros (I0 & I1 & U & R) HS I' U' F. split; [trivial|]. split; [trivial|]. split; [trivial|].
  destruct R as [(E & E1)|(Rb & P0 & P1 & Em)]; [left; split; trivial|right].
  cbn [h0 h1 ridx set_h0]. rewrite HS. split; [trivial|]. split; [trivial|]. split; [trivial|].
  intros j Hj. apply F; [trivial|]. now apply Em.
Qed.
Lemma hinv_set_h1 d h : dinv d -> rehashing d = true -> hsize h = hsize (h1 d) -> hinv h ->
  uniq (ents (h0 d) ++ ents h) -> dinv (set_h1 d h).
Proof.
  intros (I0 & I1 & U & R) Rh HS I' U'. destruct (rehashing_true d R Rh) as (Rb & P0 & P1 & Em).
  split; [trivial|]. split; [trivial|]. split; [trivial|]. right. cbn [h0 h1 ridx set_h1]. rewrite HS. auto.
Qed.

Lemma insert_spec d k v : dinv d -> pow2 (hsize (h0 d)) -> mem_key keq (dents d) k = false ->
  exists d', insert hash d k v = Some d' /\ dinv d' /\ Permutation (dents d') ((k, v) :: dents d) /\ same d d'.
Proof.
  intros D P M. pose proof D as (I0 & I1 & U & R). pose proof (uniq_cons _ _ v U M) as UC.
  unfold insert. destruct (rehashing d) eqn:Rh.
  - destruct (rehashing_true d R Rh) as (_ & _ & P1 & _).
    destruct (put_front_spec (h1 d) (k, v) I1 P1) as (h & -> & Ih & Sh & Ph).
    assert (PE : Permutation (ents (h0 d) ++ ents h) ((k, v) :: dents d)).
    { rewrite Ph. symmetry. apply Permutation_middle. }
    eexists. split; [reflexivity|]. split; [|split; [exact PE|split; reflexivity]].
    apply hinv_set_h1; trivial. eapply uniq_perm; [symmetry; exact PE|trivial].
  - destruct (put_front_spec (h0 d) (k, v) I0 P) as (h & -> & Ih & Sh & Ph).
    assert (PE : Permutation (ents h ++ ents (h1 d)) ((k, v) :: dents d)).
    { rewrite Ph. reflexivity. }
    eexists. split; [reflexivity|]. split; [|split; [exact PE|split; reflexivity]].
    apply hinv_h1_h0; trivial.
    + eapply uniq_perm; [symmetry; exact PE|trivial].
    + intros j Hj. destruct (rehashing_false d R Rh). lia.
Qed.

Lemma update_in c k v e : In e (update keq c k v) -> exists e', In e' c /\ fst e' = fst e.
Proof.
  intros H. apply (in_map fst) in H. rewrite update_keys in H. apply in_map_iff in H as (e' & A & B). eauto.
Qed.

(** changing one chain keeps emptied chains empty *)
Lemma map_chain_empty h (k : Z) f n j : f [] = [] -> nth j (tbl h) [] = [] -> nth j (tbl (map_chain h k f n)) [] = [].
Proof.
  intros F E. unfold map_chain. cbn [tbl]. destruct (Nat.eq_dec j (bucket h k)) as [->|N].
  - destruct (Nat.lt_ge_cases (bucket h k) (length (tbl h))).
    + rewrite nth_upd_same by trivial. now rewrite E.
    + apply nth_overflow. rewrite upd_length. lia.
  - now rewrite nth_upd_other.
Qed.

Lemma change_h0 d k f n g : dinv d -> pow2 (hsize (h0 d)) ->
  (forall c e, In e (f c) -> exists e', In e' c /\ fst e' = fst e) ->
  mem_key keq (nth (bucket (h0 d) (hash k)) (tbl (h0 d)) []) k = true ->
  (forall c, mem_key keq c k = true -> Z.of_nat (length (f c)) = Z.of_nat (length c) + n) ->
  (forall A c B, lookup keq A k = None -> mem_key keq c k = true -> A ++ f c ++ B = g (A ++ c ++ B)) ->
  (forall l, uniq l -> uniq (g l)) -> f [] = [] ->
  dinv (set_h0 d (map_chain (h0 d) (hash k) f n)) /\
  dents (set_h0 d (map_chain (h0 d) (hash k) f n)) = g (dents d) /\
  same d (set_h0 d (map_chain (h0 d) (hash k) f n)).
Proof.
  intros D P F M L G UG F0. pose proof D as (I0 & I1 & U & R).
  destruct (map_chain_spec (h0 d) k f n I0 P F (L _ M)) as (A & B & E1 & E2 & LA & HI & HS).
  assert (DE : dents (set_h0 d (map_chain (h0 d) (hash k) f n)) = g (dents d)).
  { unfold dents. cbn [h0 h1 set_h0]. rewrite E1, E2, <- !app_assoc. now apply G. }
  split; [|split; [trivial|split; reflexivity]].
  apply hinv_h1_h0; trivial.
  - change (uniq (dents (set_h0 d (map_chain (h0 d) (hash k) f n)))). rewrite DE. now apply UG.
  - intros j _. now apply map_chain_empty.
Qed.
Lemma change_h1 d k f n g : dinv d -> rehashing d = true -> pow2 (hsize (h1 d)) ->
  (forall c e, In e (f c) -> exists e', In e' c /\ fst e' = fst e) ->
  lookup keq (ents (h0 d)) k = None ->
  mem_key keq (nth (bucket (h1 d) (hash k)) (tbl (h1 d)) []) k = true ->
  (forall c, mem_key keq c k = true -> Z.of_nat (length (f c)) = Z.of_nat (length c) + n) ->
  (forall A c B, lookup keq A k = None -> mem_key keq c k = true -> A ++ f c ++ B = g (A ++ c ++ B)) ->
  (forall l, uniq l -> uniq (g l)) ->
  dinv (set_h1 d (map_chain (h1 d) (hash k) f n)) /\
  dents (set_h1 d (map_chain (h1 d) (hash k) f n)) = g (dents d) /\
  same d (set_h1 d (map_chain (h1 d) (hash k) f n)).
Proof.
  intros D Rh P F L0 M L G UG. pose proof D as (I0 & I1 & U & R).
  destruct (map_chain_spec (h1 d) k f n I1 P F (L _ M)) as (A & B & E1 & E2 & LA & HI & HS).
  assert (DE : dents (set_h1 d (map_chain (h1 d) (hash k) f n)) = g (dents d)).
  { unfold dents. cbn [h0 h1 set_h1]. rewrite E1, E2. rewrite (app_assoc (ents (h0 d)) A).
    rewrite (app_assoc (ents (h0 d)) A (_ ++ B)). apply G; trivial. now rewrite lookup_app, L0. }
  split; [|split; [trivial|split; reflexivity]].
  apply hinv_set_h1; trivial.
  change (uniq (dents (set_h1 d (map_chain (h1 d) (hash k) f n)))). rewrite DE. now apply UG.
Qed.

Lemma upd_facts k v : (forall c, mem_key keq c k = true -> Z.of_nat (length (update keq c k v)) = Z.of_nat (length c) + 0) /\
  (forall A c B, lookup keq A k = None -> mem_key keq c k = true ->
     A ++ update keq c k v ++ B = update keq (A ++ c ++ B) k v).
Proof.
  split; intros.
  - rewrite update_length. lia.
  - rewrite update_app_l by trivial. now rewrite update_app_r.
Qed.
Lemma rem_facts k : (forall c, mem_key keq c k = true -> Z.of_nat (length (remove (V:=V) keq c k)) = Z.of_nat (length c) + -1) /\
  (forall A c B, lookup (V:=V) keq A k = None -> mem_key keq c k = true ->
     A ++ remove keq c k ++ B = remove keq (A ++ c ++ B) k).
Proof.
  split; intros.
  - pose proof (remove_length c k H). lia.
  - rewrite remove_app_l by trivial. now rewrite remove_app_r.
Qed.

Lemma key_in_d d k (t : bool) : dinv d ->
  (if t then mem_key keq (nth (bucket (h1 d) (hash k)) (tbl (h1 d)) []) k = true
   else mem_key keq (nth (bucket (h0 d) (hash k)) (tbl (h0 d)) []) k = true) ->
  mem_key keq (dents d) k = true.
Proof.
  intros D H. destruct (mem_key keq (dents d) k) eqn:M; trivial. exfalso.
  apply mem_key_false, lookup_none in M. rewrite Forall_forall in M.
  destruct t; (match type of H with mem_key _ ?c _ = true => assert (X : mem_key keq c k = false) end);
    try congruence; apply mem_key_false, lookup_none, Forall_forall; intros e He;
    apply M; unfold dents; apply in_or_app; [right|left]; eapply nth_in_concat; eauto.
Qed.
Lemma rehashing_of_h1 d k : dinv d -> mem_key keq (nth (bucket (h1 d) (hash k)) (tbl (h1 d)) []) k = true -> rehashing d = true.
Proof.
  intros (_ & _ & _ & R) M. destruct (rehashing d) eqn:C; trivial.
  destruct (rehashing_false d R C) as (_ & E). rewrite E in M. cbn in M.
  destruct (bucket _ _) in M; discriminate.
Qed.

Lemma dadd_spec d k v : dinv d -> Z.of_nat (length (dents d)) < 2 ^ 60 ->
  exists d', dadd keq hash d k v = Some (d', negb (mem_key keq (dents d) k)) /\ dinv d' /\ same d d' /\
    Permutation (dents d') (if mem_key keq (dents d) k then dents d else (k, v) :: dents d).
Proof.
  intros D L. unfold dadd. destruct (rstep_spec d D) as (d0 & -> & D0 & P0 & S0).
  rewrite (mem_key_perm (dents d) (dents d0)); [|now symmetry|apply D].
  destruct (key_index_spec d0 k D0) as (d1 & p & -> & D1 & E1 & S1 & Q1 & C).
  { apply Permutation_length in P0. now rewrite P0. }
  pose proof (same_trans _ _ _ S0 S1) as S01.
  destruct p as [|t|]; [destruct C| |].
  - assert (M : mem_key keq (dents d0) k = true).
    { rewrite <- E1. apply (key_in_d d1 k t D1). destruct t; [apply C|exact C]. }
    rewrite M. exists d1. split; [reflexivity|]. split; [trivial|]. split; [trivial|]. now rewrite E1.
  - rewrite <- E1 in C. destruct (insert_spec d1 k v D1 Q1 C) as (d2 & -> & D2 & P2 & S2).
    rewrite E1 in C, P2. rewrite C. exists d2. split; [reflexivity|]. split; [trivial|].
    split; [eapply same_trans; eauto|]. rewrite P2. now constructor.
Qed.

Lemma dreplace_spec d k v : dinv d -> Z.of_nat (length (dents d)) < 2 ^ 60 ->
  exists d', dreplace keq hash d k v = Some (d', negb (mem_key keq (dents d) k)) /\ dinv d' /\ same d d' /\
    Permutation (dents d') (if mem_key keq (dents d) k then update keq (dents d) k v else (k, v) :: dents d).
Proof.
  intros D L. unfold dreplace. destruct (rstep_spec d D) as (d0 & -> & D0 & P0 & S0).
  rewrite (mem_key_perm (dents d) (dents d0)); [|now symmetry|apply D].
  assert (PU : Permutation (update keq (dents d0) k v) (update keq (dents d) k v)).
  { apply perm_update; [trivial|apply D0]. }
  destruct (key_index_spec d0 k D0) as (d1 & p & -> & D1 & E1 & S1 & Q1 & C).
  { apply Permutation_length in P0. now rewrite P0. }
  pose proof (same_trans _ _ _ S0 S1) as S01. destruct (upd_facts k v) as (UF1 & UF2).
  destruct p as [|t|]; [destruct C| |].
  - assert (M : mem_key keq (dents d0) k = true).
    { rewrite <- E1. apply (key_in_d d1 k t D1). destruct t; [apply C|exact C]. }
    rewrite M. destruct t.
    + destruct C as (C1 & C2 & C3).
      destruct (change_h1 d1 k (fun c => update keq c k v) 0 (fun l => update keq l k v) D1
        (rehashing_of_h1 _ _ D1 C3) C2 (fun c e => update_in c k v e) C1 C3 UF1 UF2 (fun l => uniq_update l k v)) as (X1 & X2 & X3).
      eexists. split; [reflexivity|]. split; [exact X1|]. split; [eapply same_trans; eauto|].
      rewrite X2, E1. exact PU.
    + destruct (change_h0 d1 k (fun c => update keq c k v) 0 (fun l => update keq l k v) D1
        Q1 (fun c e => update_in c k v e) C UF1 UF2 (fun l => uniq_update l k v) eq_refl) as (X1 & X2 & X3).
      eexists. split; [reflexivity|]. split; [exact X1|]. split; [eapply same_trans; eauto|].
      rewrite X2, E1. exact PU.
  - rewrite <- E1 in C. destruct (insert_spec d1 k v D1 Q1 C) as (d2 & -> & D2 & P2 & S2).
    rewrite E1 in C, P2. rewrite C. exists d2. split; [reflexivity|]. split; [trivial|].
    split; [eapply same_trans; eauto|]. rewrite P2. now constructor.
Qed.

Lemma remove_in (c : chain) k e : In e (remove keq c k) -> exists e', In e' c /\ fst e' = fst e.
Proof. intros H. exists e. split; [eapply remove_incl; eauto|trivial]. Qed.

Lemma ddelete_spec d k : dinv d ->
  exists d', ddelete keq hash d k = Some (d', mem_key keq (dents d) k) /\ dinv d' /\ same d d' /\
    Permutation (dents d') (if mem_key keq (dents d) k then remove keq (dents d) k else dents d).
Proof.
  intros D. unfold ddelete. destruct ((used (h0 d) =? 0) && (used (h1 d) =? 0)) eqn:E.
  - exists d. rewrite (size_zero d D) by (unfold dsize; lia). cbn.
    split; [reflexivity|]. split; [trivial|]. split; [split; trivial|constructor].
  - assert (N : dsize d <> 0).
    { destruct D as ((U0 & _) & (U1 & _) & _). unfold dsize. lia. }
    destruct (rstep_spec d D) as (d1 & -> & D1 & P1 & S1).
    rewrite (mem_key_perm (dents d) (dents d1)); [|now symmetry|apply D].
    assert (PR : Permutation (remove keq (dents d1) k) (remove keq (dents d) k)).
    { apply perm_remove; [trivial|apply D1]. }
    assert (Q1 : pow2 (hsize (h0 d1))).
    { apply size_pow; trivial. rewrite dsize_dents in * by trivial. apply Permutation_length in P1. lia. }
    destruct (two_tables d1 k D1 Q1) as (c0 & -> & L0 & N0 & T). destruct (rem_facts k) as (RF1 & RF2).
    destruct (mem_key keq c0 k) eqn:M0.
    + rewrite N0 in M0. pose proof (key_in_d d1 k false D1 M0) as MD. rewrite MD.
      destruct (change_h0 d1 k (fun c => remove keq c k) (-1) (fun l => remove keq l k) D1
        Q1 (fun c e => remove_in c k e) M0 RF1 RF2 (fun l => uniq_remove l k) eq_refl) as (X1 & X2 & X3).
      eexists. split; [reflexivity|]. split; [exact X1|]. split; [eapply same_trans; eauto|].
      rewrite X2. exact PR.
    + apply mem_key_false in M0. rewrite M0 in L0. symmetry in L0.
      destruct (rehashing d1) eqn:Rh.
      * destruct T as (c1 & -> & L1 & Q2 & N1). destruct (mem_key keq c1 k) eqn:M1.
        -- rewrite N1 in M1. pose proof (key_in_d d1 k true D1 M1) as MD. rewrite MD.
           destruct (change_h1 d1 k (fun c => remove keq c k) (-1) (fun l => remove keq l k) D1
             Rh Q2 (fun c e => remove_in c k e) L0 M1 RF1 RF2 (fun l => uniq_remove l k)) as (X1 & X2 & X3).
           eexists. split; [reflexivity|]. split; [exact X1|]. split; [eapply same_trans; eauto|].
           rewrite X2. exact PR.
        -- apply mem_key_false in M1. rewrite M1 in L1.
           assert (MD : mem_key keq (dents d1) k = false).
           { unfold dents. apply mem_key_false. now rewrite lookup_app, L0, <- L1. }
           rewrite MD. exists d1. split; [reflexivity|]. split; [trivial|]. split; trivial.
      * assert (MD : mem_key keq (dents d1) k = false).
        { unfold dents. apply mem_key_false. now rewrite lookup_app, L0, T. }
        rewrite MD. exists d1. split; [reflexivity|]. split; [trivial|]. split; trivial.
Qed.

Definition op_ok (o : dop K V) : Prop := match o with DExpand n => n <= 2 ^ 62 | _ => True end.

Lemma dstep_spec d l o : dinv d -> Permutation (dents d) l -> Z.of_nat (length l) < 2 ^ 60 -> op_ok o ->
  exists d', dstep keq hash d o = Some (d', snd (spec_step keq l o)) /\ dinv d' /\
             Permutation (dents d') (fst (spec_step keq l o)).
Proof.
  intros D P L OK. assert (U : uniq (dents d)) by apply D.
  assert (L' : Z.of_nat (length (dents d)) < 2 ^ 60) by (apply Permutation_length in P; now rewrite P).
  destruct o as [k|k v|k v|k| | |n|b| |]; cbn [dstep spec_step].
  - destruct (dfind_spec d k D) as (d' & -> & D' & P' & _). exists d'. cbn [fst snd].
    rewrite (lookup_perm _ _ _ P U). split; [reflexivity|]. split; [trivial|]. now rewrite P'.
  - destruct (dadd_spec d k v D L') as (d' & -> & D' & _ & P'). exists d'.
    pose proof (mem_key_perm (dents d) l k P U) as ME. rewrite ME in P' |- *. destruct (mem_key keq l k); cbn [fst snd negb];
      (split; [reflexivity|]); (split; [trivial|]); rewrite P'; trivial. now constructor.
  - destruct (dreplace_spec d k v D L') as (d' & -> & D' & _ & P'). exists d'.
    pose proof (mem_key_perm (dents d) l k P U) as ME. rewrite ME in P' |- *. destruct (mem_key keq l k); cbn [fst snd negb];
      (split; [reflexivity|]); (split; [trivial|]); rewrite P'; [now apply perm_update|now constructor].
  - destruct (ddelete_spec d k D) as (d' & -> & D' & _ & P'). exists d'.
    pose proof (mem_key_perm (dents d) l k P U) as ME. rewrite ME in P' |- *. destruct (mem_key keq l k); cbn [fst snd negb];
      (split; [reflexivity|]); (split; [trivial|]); rewrite P'; trivial. now apply perm_remove.
  - eexists. split; [reflexivity|]. split; [|constructor].
    destruct dinv_create as (A & B & C & E). split; [trivial|]. split; [trivial|]. split; [trivial|]. now left.
  - eexists. split; [reflexivity|]. cbn [fst]. unfold dresize.
    destruct (negb (can d) || rehashing d); [now split|].
    destruct (expand_spec d (Z.max 4 (used (h0 d))) D) as (X1 & X2 & _).
    + destruct D as ((U0 & _) & _). unfold dents in L'. rewrite app_length in L'.
      change (2 ^ 60) with 1152921504606846976 in L'. change (2 ^ 62) with 4611686018427387904. lia.
    + split; [exact X1|]. now rewrite X2.
  - eexists. split; [reflexivity|]. cbn [fst]. destruct (expand_spec d n D OK) as (X1 & X2 & _).
    split; [exact X1|]. now rewrite X2.
  - eexists. split; [reflexivity|]. split; [|exact P]. exact D.
  - eexists. split; [reflexivity|]. split; [|exact P]. exact D.
  - eexists. split; [reflexivity|]. split; [|exact P]. exact D.
Qed.

Lemma spec_step_length (l : chain) o : (length (fst (spec_step keq l o)) <= S (length l))%nat.
Proof.
  destruct o as [k|k v|k v|k| | |n|b| |]; cbn [spec_step]; try (cbn; lia).
  - destruct (mem_key keq l k); cbn; lia.
  - destruct (mem_key keq l k); cbn; [rewrite update_length|]; lia.
  - destruct (mem_key keq l k) eqn:M; cbn; [|lia]. pose proof (remove_length l k M). lia.
Qed.

Lemma drun_spec os : forall d l, dinv d -> Permutation (dents d) l -> Forall op_ok os ->
  Z.of_nat (length l) + Z.of_nat (length os) < 2 ^ 60 ->
  exists d', drun keq hash d os = Some (d', snd (spec_run keq l os)) /\ dinv d' /\
             Permutation (dents d') (fst (spec_run keq l os)).
Proof.
  induction os as [|o os IH]; intros d l D P F L; cbn [drun spec_run].
  - exists d. now split.
  - apply Forall_cons_iff in F as (F1 & F2). cbn [length] in L.
    destruct (dstep_spec d l o D P ltac:(lia) F1) as (d1 & E1 & D1 & P1).
    pose proof (spec_step_length l o) as SL. rewrite E1.
    destruct (spec_step keq l o) as (l1, x). cbn [fst snd] in *.
    destruct (IH d1 l1 D1 P1 F2 ltac:(lia)) as (d2 & -> & D2 & P2).
    exists d2. destruct (spec_run keq l1 os) as (l2, xs). now split.
Qed.
End Dict.
