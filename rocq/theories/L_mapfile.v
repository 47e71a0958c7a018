(** Lemmas for the list of contents. *)
From Verif Require Import Base M_memory L_memory S_memory S_mapfile M_mapfile.
From Coq Require Import ZifyBool ZifyNat.

(** * lists by name *)
Lemma mget_in : forall A (m : named A) n d, mget m n = Some d -> In (n, d) m.
Proof.
  intros A; induction m as [|[x e] m IH]; intros n d H; [discriminate|]. cbn [mget] in H. destruct (list_eq_dec Z.eq_dec x n).
  - injection H as ->. left. congruence.
  - right. now apply IH.
Qed.
Lemma mget_none : forall A (m : named A) n d, mget m n = None -> ~ In (n, d) m.
Proof.
  intros A; induction m as [|[x e] m IH]; intros n d H; [intros []|]. cbn [mget] in H. destruct (list_eq_dec Z.eq_dec x n); [discriminate|].
  intros [E|I]; [congruence|]. exact (IH n d H I).
Qed.
Lemma mset_in : forall A (m : named A) n d, NoDup (map fst m) -> forall x e, In (x, e) (mset m n d) <-> ((x = n /\ e = d) \/ (x <> n /\ In (x, e) m)).
Proof.
  intros A; induction m as [|[y f] m IH]; intros n d N x e.
  - cbn. split; [intros [E|[]]; injection E as <- <-; auto|intros [[-> ->]|[_ []]]; auto].
  - cbn [map fst] in N. inversion N as [|? ? N1 N2]; subst. cbn [mset]. destruct (list_eq_dec Z.eq_dec y n) as [->|NE].
    + split.
      * intros [E|I]; [injection E as <- <-; auto|]. right. split; [|right; exact I]. intros ->. apply N1. now apply (in_map fst _ (n, e)).
      * intros [[-> ->]|[X [E|I]]]; [left; reflexivity|congruence|right; exact I].
    + split.
      * intros [E|I]; [injection E as <- <-; right; split; [congruence|left; reflexivity]|]. apply IH in I; [|exact N2].
        destruct I as [I|[X I]]; [left; exact I|right; split; [exact X|right; exact I]].
      * intros [[-> ->]|[X [E|I]]]; [right; apply IH; auto|left; exact E|right; apply IH; auto].
Qed.
Lemma mset_names : forall A (m : named A) n d, map fst (mset m n d) = if in_dec (list_eq_dec Z.eq_dec) n (map fst m) then map fst m else map fst m ++ [n].
Proof.
  intros A; induction m as [|[y f] m IH]; intros n d; [reflexivity|]. cbn [mset map fst].
  destruct (list_eq_dec Z.eq_dec y n) as [->|NE].
  - destruct (in_dec _ n (n :: map fst m)) as [I|I]; [reflexivity|]. destruct I. now left.
  - cbn [map fst]. rewrite IH. destruct (in_dec _ n (map fst m)) as [I|I]; destruct (in_dec _ n (y :: map fst m)) as [J|J]; try reflexivity.
    + destruct J. now right.
    + destruct J; [congruence|contradiction].
Qed.
Lemma nodup_snoc : forall (l : list (list Z)) n, NoDup l -> ~ In n l -> NoDup (l ++ [n]).
Proof.
  induction l as [|a l IH]; intros n N I; cbn; [constructor; [intros []|constructor]|].
  inversion N; subst. constructor; [|apply IH; [assumption|intros J; apply I; now right]].
  intros J. apply in_app_or in J. destruct J as [J|[<-|[]]]; [contradiction|]. apply I. now left.
Qed.
Lemma mset_nodup : forall A (m : named A) n d, NoDup (map fst m) -> NoDup (map fst (mset m n d)).
Proof.
  intros A m n d N. rewrite mset_names. destruct (in_dec _ n (map fst m)); [exact N|]. now apply nodup_snoc.
Qed.

(** * lists by date *)
Fixpoint usorted (l : list (Z * Z)) : Prop :=
  match l with [] => True | (k, _) :: l' => Forall (fun p => k < fst p) l' /\ usorted l' end.
Lemma uget_in : forall l k v, uget l k = Some v -> In (k, v) l.
Proof.
  induction l as [|[x w] l IH]; intros k v H; [discriminate|]. cbn [uget] in H. destruct (x =? k) eqn:E.
  - injection H as ->. left. f_equal. lia.
  - right. now apply IH.
Qed.
Lemma uget_none : forall l k v, uget l k = None -> ~ In (k, v) l.
Proof.
  induction l as [|[x w] l IH]; intros k v H; [intros []|]. cbn [uget] in H. destruct (x =? k) eqn:E; [discriminate|].
  intros [F|I]; [injection F as -> ->; lia|]. exact (IH k v H I).
Qed.
Lemma uset_in : forall l k v, usorted l -> forall x w, In (x, w) (uset l k v) <-> ((x = k /\ w = v) \/ (x <> k /\ In (x, w) l)).
Proof.
  induction l as [|[y u] l IH]; intros k v S x w.
  - cbn. split; [intros [E|[]]; injection E as <- <-; auto|intros [[-> ->]|[_ []]]; auto].
  - cbn [usorted] in S. destruct S as [F S]. rewrite Forall_forall in F. cbn [uset]. destruct (y =? k) eqn:E; [|destruct (k <? y) eqn:G].
    + assert (y = k) by lia. subst y. split.
      * intros [X|I]; [injection X as <- <-; auto|]. right. split; [|right; exact I]. specialize (F _ I). cbn in F. lia.
      * intros [[-> ->]|[X [Y|I]]]; [left; reflexivity|congruence|right; exact I].
    + split.
      * intros [X|I]; [injection X as <- <-; auto|]. right. split; [|exact I]. destruct I as [X|I]; [injection X as <- <-; lia|]. specialize (F _ I). cbn in F. lia.
      * intros [[-> ->]|[X I]]; [left; reflexivity|right; exact I].
    + split.
      * intros [X|I]; [injection X as <- <-; right; split; [lia|left; reflexivity]|]. apply IH in I; [|exact S].
        destruct I as [I|[X I]]; [left; exact I|right; split; [exact X|right; exact I]].
      * intros [[-> ->]|[X [Y|I]]]; [right; apply IH; auto|left; exact Y|right; apply IH; auto].
Qed.
Lemma uset_sorted : forall l k v, usorted l -> usorted (uset l k v).
Proof.
  induction l as [|[y u] l IH]; intros k v S; [cbn; split; [constructor|exact I]|]. pose proof S as S0. cbn [usorted] in S. destruct S as [F S].
  cbn [uset]. destruct (y =? k) eqn:E; [split; assumption|destruct (k <? y) eqn:G].
  - cbn [usorted]. split; [|exact S0]. constructor; [cbn; lia|]. eapply Forall_impl; [|exact F]. cbn; intros; lia.
  - cbn [usorted]. split; [|apply IH; exact S]. apply Forall_forall. intros [x w] I. apply uset_in in I; [|exact S].
    rewrite Forall_forall in F. destruct I as [[-> _]|[_ I]]; [cbn; lia|]. apply (F _ I).
Qed.

(** * texts *)
Lemma name_label : forall keys tabs k t, labels_clear keys tabs -> name_of keys tabs k t = label keys tabs k t.
Proof.
  intros keys tabs k t [L _]. specialize (L k t). unfold name_of, label in *. destruct (nth_error keys k) as [kn|]; [|reflexivity].
  destruct t as [j|].
  - destruct (nth_error tabs j) as [tn|]; [|reflexivity]. rewrite firstn_all2 by (apply (L _ eq_refl)). reflexivity.
  - rewrite firstn_all2 by (apply (L _ eq_refl)). reflexivity.
Qed.
Lemma label_range : forall keys tabs k t n, label keys tabs k t = Some n ->
  (k < List.length keys)%nat /\ match t with Some j => (j < List.length tabs)%nat | None => True end.
Proof.
  intros keys tabs k t n H. unfold label in H. destruct (nth_error keys k) eqn:K; [|discriminate].
  split; [apply nth_error_Some; congruence|]. destruct t as [j|]; [|exact I]. destruct (nth_error tabs j) eqn:J; [|discriminate].
  apply nth_error_Some. congruence.
Qed.

(** * one block *)
Definition tnum (t : option nat) : Z := match t with Some j => Z.of_nat j + 1 | None => 0 end.
Lemma block_eq : forall k t ktype date, 0 <= ktype < 256 -> 0 <= date < 2 ^ 31 ->
  block_bytes k t 1 ktype 1 date = ssize_bytes (Z.of_nat k) ++ ssize_bytes (tnum t) ++ [1] ++ [ktype] ++ [1] ++ [1] ++ ssize_bytes date.
Proof.
  intros k t ktype date K D. unfold block_bytes. cbn zeta.
  assert (T : 0 <= tnum t) by (destruct t; cbn; lia). fold (tnum t).
  destruct (mem_cat_ssize_spec mem_create (Z.of_nat k) mem_ok_create ltac:(lia)) as [O1 E1].
  destruct (mem_cat_ssize_spec _ (tnum t) O1 T) as [O2 E2].
  destruct (mem_cat_byte_spec _ 1 1 O2 ltac:(auto)) as [O3 E3].
  destruct (mem_cat_byte_spec _ ktype 1 O3 ltac:(auto)) as [O4 E4].
  destruct (mem_cat_ssize_spec _ 1 O4 ltac:(lia)) as [O5 E5].
  change (Z.to_nat 1) with 1%nat.
  destruct (mem_cat_byte_spec _ 1 1 O5 ltac:(auto)) as [O6 E6].
  destruct (mem_cat_ssize_spec _ date O6 ltac:(lia)) as [O7 E7].
  rewrite E7, E6, E5, E4, E3, E2, E1. change (mem_live mem_create) with (@nil Z).
  assert (KK : le_bytes 1 ktype = [ktype]) by (cbn; rewrite Z.mod_small by lia; reflexivity). rewrite KK.
  change (le_bytes 1 1) with [1]. change (ssize_bytes 1) with [1]. rewrite <- !app_assoc. reflexivity.
Qed.

Lemma read_block_ok : forall stale keys tabs m k t ktype date n, labels_clear keys tabs -> label keys tabs k t = Some n ->
  Z.of_nat (List.length keys) < 2 ^ 31 -> Z.of_nat (List.length tabs) < 2 ^ 31 -> 0 <= ktype < 256 -> 0 <= date < 2 ^ 31 ->
  read_block stale keys tabs m (block_bytes k t 1 ktype 1 date) =
    match mget m n with
    | Some d => Some (mset m n (mkdm (d_key d) (d_tab d) (d_active d) (d_ktype d) (uset (d_units d) date 1)))
    | None => Some (mset m n (mkdm k t 1 ktype [(date, 1)]))
    end.
Proof.
  intros stale keys tabs m k t ktype date n L N LK LT K D. rewrite block_eq by assumption. unfold read_block.
  destruct (label_range _ _ _ _ _ N) as [RK RT].
  assert (RT' : 0 <= tnum t < 2 ^ 31) by (destruct t; cbn [tnum]; lia).
  change (2 ^ 31) with 2147483648 in *.
  destruct (mem_cat_spec mem_create (ssize_bytes (Z.of_nat k) ++ ssize_bytes (tnum t) ++ [1] ++ [ktype] ++ [1] ++ [1] ++ ssize_bytes date) mem_ok_create) as [O0 E0].
  change (mem_live mem_create ++ ?x) with x in E0.
  destruct (mem_get_ssize_spec stale _ (Z.of_nat k) _ O0 ltac:(lia) E0) as (m1 & -> & O1 & E1 & _).
  destruct (mem_get_ssize_spec stale _ (tnum t) _ O1 ltac:(lia) E1) as (m2 & -> & O2 & E2 & _).
  rewrite (to_s_small 32 (Z.of_nat k)) by (change (2 ^ (32 - 1)) with 2147483648; lia).
  rewrite (to_s_small 32 (tnum t - 1)) by (change (2 ^ (32 - 1)) with 2147483648; lia).
  replace (Z.of_nat k <? 0) with false by lia. rewrite Nat2Z.id. cbn zeta.
  assert (TT : (if (0 <=? tnum t - 1) && (tnum t - 1 <? Z.of_nat (length tabs)) then Some (Z.to_nat (tnum t - 1)) else None) = t).
  { destruct t as [j|]; cbn [tnum].
    - replace (_ && _) with true by lia. f_equal. lia.
    - reflexivity. }
  rewrite TT, name_label, N by exact L.
  destruct (mem_get_byte_step stale _ 1 _ O2 ltac:(unfold is_byte; lia) E2) as (-> & O3 & E3).
  destruct (mem_get_byte_step stale _ ktype _ O3 ltac:(unfold is_byte; lia) E3) as (-> & O4 & E4).
  destruct (mem_get_ssize_spec stale _ 1 _ O4 ltac:(lia) E4) as (m5 & -> & O5 & E5 & _).
  change (Z.to_nat (to_s 32 1)) with 1%nat. cbn [read_units].
  destruct (mem_get_byte_step stale _ 1 _ O5 ltac:(unfold is_byte; lia) E5) as (-> & O6 & E6).
  rewrite <- (app_nil_r (ssize_bytes date)) in E6.
  destruct (mem_get_ssize_spec stale _ date _ O6 ltac:(lia) E6) as (m7 & -> & O7 & E7 & _).
  rewrite (to_u_small 32 date) by lia. change (to_u 8 1) with 1. rewrite (to_u_small 8 ktype) by lia.
  destruct (mget m n); reflexivity.
Qed.

Lemma read_snoc : forall stale keys tabs bs m b, read_blocks stale keys tabs m (bs ++ [b]) =
  match read_blocks stale keys tabs m bs with Some m' => read_block stale keys tabs m' b | None => None end.
Proof.
  induction bs as [|c bs IH]; intros m b; cbn [app read_blocks]; [destruct (read_block stale keys tabs m b); reflexivity|].
  destruct (read_block stale keys tabs m c); [apply IH|reflexivity].
Qed.

(** * all of a history *)
Definition good (keys tabs : list (list Z)) (m : maps) : Prop :=
  NoDup (map fst m) /\
  forall n d, In (n, d) m -> label keys tabs (d_key d) (d_tab d) = Some n /\ d_active d = 1 /\ 0 <= d_ktype d < 256 /\ usorted (d_units d) /\
    Forall (fun p => snd p = 1) (d_units d).
Lemma place_eqb_ok : forall a b, place_eqb a b = true <-> a = b.
Proof.
  intros [k t d] [k' t' d']. unfold place_eqb; cbn [p_key p_tab p_date]. split.
  - intros H. apply andb_prop in H. destruct H as [H T]. apply andb_prop in H. destruct H as [H D].
    assert (t = t') by (destruct t, t'; try discriminate; [apply Nat.eqb_eq in T; congruence|reflexivity]).
    apply Nat.eqb_eq in H. assert (d = d') by lia. congruence.
  - intros H. injection H as <- <- <-. rewrite Nat.eqb_refl, Z.eqb_refl. destruct t; [now rewrite Nat.eqb_refl|reflexivity].
Qed.

Lemma put_ok : forall keys tabs m n q kt units, labels_clear keys tabs -> good keys tabs m -> label keys tabs (p_key q) (p_tab q) = Some n -> 0 <= kt < 256 ->
  usorted units -> Forall (fun p => snd p = 1) units ->
  (forall k a, In (k, a) units <-> (exists d, In (n, d) m /\ In (k, a) (d_units d))) ->
  let m' := mset m n (mkdm (p_key q) (p_tab q) 1 kt (uset units (p_date q) 1)) in
  good keys tabs m' /\ forall p, shown m' p <-> (q = p \/ shown m p).
Proof.
  intros keys tabs m n q kt units L [G1 G2] N K US UA UU. cbn zeta.
  assert (UA' : Forall (fun p => snd p = 1) (uset units (p_date q) 1)).
  { apply Forall_forall. intros [x w] I. apply uset_in in I; [|exact US]. rewrite Forall_forall in UA.
    destruct I as [[_ ->]|[_ I]]; [reflexivity|]. apply (UA _ I). }
  split; [split|].
  - now apply mset_nodup.
  - intros x e I. apply mset_in in I; [|exact G1]. destruct I as [[-> ->]|[_ I]]; [|now apply G2].
    cbn [d_key d_tab d_active d_ktype d_units]. split; [exact N|]. split; [reflexivity|]. split; [exact K|]. split; [now apply uset_sorted|exact UA'].
  - intros p. split.
    + intros (x & e & a & I & K1 & K2 & K3 & K4). apply mset_in in I; [|exact G1]. destruct I as [[-> ->]|[NE I]].
      * cbn [d_key d_tab d_units] in *. apply uset_in in K3; [|exact US]. destruct K3 as [[K3 _]|[_ K3]].
        -- left. destruct p, q; cbn in *. congruence.
        -- right. apply UU in K3. destruct K3 as [d [D1 D2]]. exists n, d, a. destruct (G2 _ _ D1) as [LL _].
           destruct L as [_ L]. destruct (L _ _ _ _ _ LL N) as [-> ->]. repeat split; auto.
      * right. exists x, e, a. auto.
    + intros [<-|(x & e & a & I & K1 & K2 & K3 & K4)].
      * exists n, (mkdm (p_key q) (p_tab q) 1 kt (uset units (p_date q) 1)), 1. split; [apply mset_in; auto|].
        cbn [d_key d_tab d_units]. repeat split; [|lia]. apply uset_in; auto.
      * destruct (list_eq_dec Z.eq_dec x n) as [->|NE].
        -- destruct (G2 _ _ I) as [LL [_ [_ [_ UE]]]]. destruct L as [_ L]. destruct (L _ _ _ _ _ LL N) as [E1 E2].
           exists n, (mkdm (p_key q) (p_tab q) 1 kt (uset units (p_date q) 1)), 1. split; [apply mset_in; auto|].
           cbn [d_key d_tab d_units]. split; [congruence|]. split; [congruence|]. split; [|lia].
           apply uset_in; [exact US|]. destruct (Z.eq_dec (p_date p) (p_date q)); [auto|]. right. split; [assumption|].
           assert (In (p_date p, a) units) by (apply UU; eauto). rewrite Forall_forall in UA. specialize (UA _ H). cbn in UA. congruence.
        -- exists x, e, a. split; [apply mset_in; auto|]. auto.
Qed.
Lemma mget_only : forall A (m : named A) n d d', NoDup (map fst m) -> mget m n = Some d -> In (n, d') m -> d' = d.
Proof.
  intros A; induction m as [|[x e] m IH]; intros n d d' N H I; [destruct I|]. cbn [map fst] in N. inversion N as [|? ? N1 N2]; subst.
  cbn [mget] in H. destruct (list_eq_dec Z.eq_dec x n) as [->|NE].
  - injection H as <-. destruct I as [E|I]; [congruence|]. destruct N1. now apply (in_map fst _ (n, d')).
  - destruct I as [E|I]; [congruence|]. eapply IH; eauto.
Qed.

Definition okc (keys tabs : list (list Z)) (c : change) : Prop := match c with Added p => known keys tabs p | Removed _ => False | Reopened => True end.
Section Run.
Variables (stale : nat -> Z) (keys tabs : list (list Z)) (ktype : nat -> option nat -> Z).
Hypothesis (L : labels_clear keys tabs) (LK : Z.of_nat (List.length keys) < 2 ^ 31) (LT : Z.of_nat (List.length tabs) < 2 ^ 31).
Hypothesis (KT : forall k t, 0 <= ktype k t < 256).
Lemma add_ok : forall f q, good keys tabs (f_maps f) -> read_blocks stale keys tabs [] (f_blocks f) = Some (f_maps f) -> known keys tabs q ->
  exists f', write_map keys tabs f (ktype (p_key q) (p_tab q)) q false = Some f' /\ good keys tabs (f_maps f') /\
    read_blocks stale keys tabs [] (f_blocks f') = Some (f_maps f') /\ forall p, shown (f_maps f') p <-> (q = p \/ shown (f_maps f) p).
Proof.
  intros f q G R [[n N] D]. unfold write_map. rewrite name_label, N by exact L. cbn zeta. pose proof G as [G1 G2].
  destruct (mget (f_maps f) n) as [d|] eqn:MG.
  - pose proof (mget_in _ _ _ _ MG) as MI. destruct (G2 _ _ MI) as (LL & AC & KK & US & UA). destruct L as [L1 L2]. destruct (L2 _ _ _ _ _ LL N) as [E1 E2].
    destruct (uget (d_units d) (p_date q)) as [a|] eqn:UG.
    + exists f. split; [reflexivity|]. split; [exact G|]. split; [exact R|]. intros p. split; [auto|]. intros [<-|H]; [|exact H].
      apply uget_in in UG. exists n, d, a. repeat split; auto. rewrite Forall_forall in UA. specialize (UA _ UG). cbn in UA. lia.
    + eexists. split; [reflexivity|]. cbn [f_maps f_blocks]. rewrite E1, E2, AC.
      destruct (put_ok keys tabs (f_maps f) n q (d_ktype d) (d_units d) L G N KK US UA) as [P1 P2].
      { intros k a. split; [intros I; exists d; auto|]. intros [d' [I1 I2]]. rewrite <- (mget_only _ _ _ _ _ G1 MG I1). exact I2. }
      split; [exact P1|]. split; [|exact P2]. rewrite read_snoc, R.
      rewrite (read_block_ok stale keys tabs _ _ _ _ _ n) by auto. rewrite MG, E1, E2, AC. reflexivity.
  - eexists. split; [reflexivity|]. cbn [f_maps f_blocks d_key d_tab d_active d_ktype d_units].
    destruct (put_ok keys tabs (f_maps f) n q (ktype (p_key q) (p_tab q)) [] L G N (KT _ _) I ltac:(constructor)) as [P1 P2].
    { intros k a. split; [intros []|]. intros [d' [I1 I2]]. exact (mget_none _ _ _ _ MG I1). }
    split; [exact P1|]. split; [|exact P2]. rewrite read_snoc, R.
    rewrite (read_block_ok stale keys tabs _ _ _ _ _ n) by auto. rewrite MG. reflexivity.
Qed.
Lemma run_ok : forall h f now, good keys tabs (f_maps f) -> read_blocks stale keys tabs [] (f_blocks f) = Some (f_maps f) ->
  Forall (okc keys tabs) h -> (forall p, shown (f_maps f) p <-> now p = true) ->
  exists f', mrun stale keys tabs ktype f h = Some f' /\ forall p, shown (f_maps f') p <-> there h p (now p) = true.
Proof.
  induction h as [|c h IH]; intros f now G R F S.
  - exists f. split; [reflexivity|exact S].
  - inversion F as [|? ? F1 F2]; subst. destruct c as [q|q|]; cbn [okc] in F1; cbn [mrun mstep there].
    + destruct (add_ok f q G R F1) as (f1 & -> & G1 & R1 & S1). apply IH; auto. intros p. rewrite S1, S. destruct (place_eqb q p) eqn:E.
      * apply place_eqb_ok in E. tauto.
      * split; [intros [->|H]; [|exact H]|auto]. assert (place_eqb p p = true) by now apply place_eqb_ok. congruence.
    + destruct F1.
    + rewrite R. apply IH; auto.
Qed.
End Run.
